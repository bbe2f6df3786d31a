(** * The numbers of the tagger's start and transition tables

    Generated from jieba/posseg/prob_start.py (256 entries) and prob_trans.py (5307 lines).
    [(m, e)] is the binary64 number [m * 2^e], the exact value of the decimal number in
    the file as Python reads it.  Rows are in the order of the states in [DataPosseg]
    (letters B, E, M, S; tags in order). *)
From Verif Require Import PyBase.
Local Open Scope Z_scope.

(** prob_start.py; [None] stands for -3.14e+100 *)
Definition pos_start_nums : list (option (Z * Z)) := [
 Some (-1340469749367717, -48); Some (-7521085728517881, -50); None; Some (-4896022595299695, -49);
 Some (-5650187226800181, -50); None; Some (-7709892762562029, -51); Some (-2237752821725069, -49);
 Some (-2502023814604181, -48); None; Some (-4820851104041437, -49); None;
 Some (-6183026176583811, -50); None; Some (-7618607269550363, -49); Some (-6885761455024517, -50);
 None; Some (-2847186452793905, -49); None; None;
 Some (-2761766935474667, -49); None; Some (-8224541152751279, -51); None;
 Some (-7641429752018015, -50); Some (-3820461614745521, -51); None; Some (-2511938527092583, -50);
 Some (-6613223250108589, -50); Some (-5613334689219867, -50); Some (-6356479213827319, -51);
   Some (-5456214157757399, -50);
 Some (-4443913940072241, -50); Some (-2373818850775909, -48); Some (-4729887642961897, -50);
   Some (-984898375109047, -47);
 None; None; Some (-3839114645718475, -50); None;
 Some (-3500071766408285, -48); Some (-8946531795101309, -50); Some (-1554494420362231, -48);
   Some (-1894184678900943, -49);
 None; Some (-2579413402263601, -48); None; None;
 None; None; None; None;
 Some (-6021444403770603, -51); Some (-159116551071389, -44); None; Some (-3500071766408285, -48);
 Some (-4876904226606653, -50); Some (-6838192923529693, -49); None; None;
 Some (-692744094085011, -46); None; Some (-7932731707064523, -50); None;
 None; None; None; None;
 None; None; None; None;
 None; None; None; None;
 None; None; None; None;
 None; None; None; None;
 None; None; None; None;
 None; None; None; None;
 None; None; None; None;
 None; None; None; None;
 None; None; None; None;
 None; None; None; None;
 None; None; None; None;
 None; None; None; None;
 None; None; None; None;
 None; None; None; None;
 None; None; None; None;
 None; None; None; None;
 None; None; None; None;
 None; None; None; None;
 None; None; None; None;
 None; None; None; None;
 None; None; None; None;
 None; None; None; None;
 None; None; None; None;
 None; None; None; None;
 None; None; None; None;
 None; None; None; None;
 None; None; None; None;
 None; None; None; None;
 None; None; None; None;
 None; None; None; None;
 None; None; None; None;
 Some (-4393869065685173, -50); Some (-1554932296698975, -47); Some (-1957409053101083, -48);
   Some (-1807100024135007, -47);
 Some (-3643912428178501, -49); None; Some (-5389645469518873, -50); Some (-8790845797626899, -51);
 None; Some (-2518750020497267, -48); Some (-3345337420091809, -49); None;
 Some (-2924423817759273, -49); Some (-3663580802564965, -49); Some (-4869834154664873, -49); None;
 None; Some (-5530411469919281, -50); None; Some (-7814106312300485, -50);
 None; None; Some (-3680792709667359, -50); Some (-6094110534977299, -49);
 None; Some (-8681022425800709, -51); Some (-2766017926196531, -49); Some (-5048155871058767, -50);
 None; None; None; Some (-6838192923529693, -49);
 None; Some (-4765067885013391, -49); Some (-6725766163893231, -51); Some (-5504140282878761, -50);
 None; None; Some (-3111462311081409, -50); Some (-723057746903629, -46);
 None; None; None; None;
 Some (-7062592822282595, -50); Some (-7814106312300485, -50); Some (-8701213618388793, -50);
   Some (-4244306963238989, -49);
 Some (-3857620439310857, -49); Some (-1184358222809947, -47); Some (-2296297270158989, -48);
   Some (-2617508605003231, -48);
 Some (-6875403039950423, -51); None; Some (-3345621810071801, -49); None;
 Some (-3223992875259679, -48); None; None; Some (-74128367231973, -43);
 Some (-6977291197911869, -50); Some (-7618607269550363, -49); None; None].

(** prob_trans.py: the numbers of the rows [pos_trans_rows] *)
Definition pos_trans_nums : list (list (Z * Z)) := [
  [(-729921133988359, -57); (-5953717090866581, -50)];
  [(-6898172839232731, -63); (-4052459042835685, -49)];
  [];
  [(0, 0)];
  [(-1216677652326443, -54); (-6144321722364243, -51)];
  [];
  [(-400166278793227, -53); (-220678545359409, -46)];
  [(-3370356706939431, -56); (-6948474440837807, -51)];
  [(0, 0)];
  [];
  [(-2115164233658343, -55); (-806255873808555, -48)];
  [];
  [(-21550088054959, -50); (-8929541223816019, -51)];
  [];
  [(0, 0)];
  [(-8455509315833577, -50); (-1262980710053253, -61)];
  [(0, 0)];
  [(-2290717556427357, -53); (-6726693149102869, -52)];
  [(0, 0)];
  [];
  [(-2071963255392863, -49); (-7359213128573013, -58)];
  [(0, 0)];
  [(-6707094889330139, -55); (-3991965304080247, -51)];
  [];
  [(-8391312197115725, -53); (-4510204626666457, -53)];
  [(-2498544410021099, -54); (-1150675423878221, -49)];
  [];
  [(-8275809950367469, -53); (-4586075108435305, -53)];
  [(-3106971720110801, -52); (-6272782185684641, -53)];
  [(-7165784303235261, -55); (-964219874493983, -49)];
  [(-5509349277161133, -54); (-3003328671887793, -51)];
  [(-1648408097165073, -48); (-3304102993986489, -60)];
  [(-4608559245896339, -53); (-1030256017413799, -50)];
  [(-2813093933987633, -54); (-8709734811569193, -52)];
  [(-4778214357901233, -63); (-8518207510422647, -50)];
  [(-8404636335850765, -55); (-3535115006713839, -51)];
  [(0, 0)];
  [];
  [(-4864248751512043, -58); (-575654896819299, -47)];
  [];
  [(-1260741596144071, -49); (-2028761349930975, -54)];
  [(0, 0)];
  [(-8915513816599305, -59); (-4702700819854811, -50)];
  [(-8932905386227403, -57); (-6331393110781687, -51)];
  [];
  [(-1601540534974409, -66); (-377809167333939, -45)];
  [];
  [];
  [];
  [];
  [];
  [];
  [(-7153455110560675, -59); (-2474452151402747, -49)];
  [(0, 0)];
  [];
  [(0, 0)];
  [(-6356339781633417, -59); (-5081144320014765, -50)];
  [(0, 0)];
  [];
  [];
  [(-2665376837214599, -59); (-6056072343103039, -50)];
  [];
  [(-4993087131852843, -53); (-7695484276326265, -53)];
  [];
  [(-7724013268982507, -51); (-7352531006181253, -50); (-3887670605917213, -49); (-1555426093552809, -48);
   (-4581703999141321, -50); (-1158906031921307, -48); (-5609947048834663, -49); (-6374502600979093, -49);
   (-3218716588868667, -49); (-6798743149880599, -50); (-1718359385776873, -48); (-1554572994805685, -48);
   (-4995204329281489, -50); (-294196258378493, -45); (-1665663162741973, -50); (-5439961756468649, -50);
   (-1189472672477427, -47); (-8100249046395519, -50); (-5991703139071865, -50); (-8605117979742107, -50);
   (-229379948600719, -45); (-5507309136929805, -49); (-1715830393231983, -48); (-8903039736815317, -50);
   (-5043761148676517, -50); (-951428759305835, -46); (-5609947048834663, -49); (-870918292875263, -47);
   (-1418483138779879, -48); (-1782356729631277, -48); (-4969491891968601, -51); (-4833568203632079, -49);
   (-6515980046673933, -49); (-472146479978553, -47); (-7221222901436345, -49); (-18599384517239, -41);
   (-3563863723322469, -49); (-5450823530594235, -50); (-380433333742101, -45); (-4429361553699973, -49);
   (-380433333742101, -45); (-8293105994210705, -50); (-7981673606388753, -51); (-7607540000205323, -51);
   (-5432137645671547, -49); (-5084552439180765, -49); (-45349505670533, -43); (-545519254818175, -46);
   (-5481120696294983, -49); (-7387274012401021, -50); (-3656904229951741, -49); (-2668199683565821, -49);
   (-6515980046673933, -49); (-4718726730965255, -50); (-5556124510595979, -50); (-7159590602942043, -50);
   (-2992147713984379, -48); (-8302056250275353, -51); (-2806080858385547, -49); (-8889470412082093, -51);
   (-7221222901436345, -49); (-8756813394741771, -50); (-86621679323035, -44); (-3274260313830605, -49);
   (-1073682309956105, -47); (-1704036209879755, -50); (-2491755922267727, -49); (-978779381767449, -48);
   (-4093006802932351, -49); (-3552000733352875, -50); (-449019827608905, -46); (-5626265581367259, -49);
   (-5196116131896165, -49); (-6200265178010895, -50)];
  [(-2065739597859275, -49); (-784952302425683, -47); (-4170817120064131, -49); (-1813379738422685, -48);
   (-6014553651781149, -50); (-2566012027824773, -49); (-1290907308983005, -47); (-7453910171544749, -50);
   (-6633986511817585, -50); (-3862717254424429, -49); (-6753004137871721, -50); (-6300420857021333, -50);
   (-4967549998617397, -49); (-752075656274637, -48); (-1686296339274155, -48); (-81447066977429, -43);
   (-4360234149997607, -49); (-7032042851724123, -50); (-5038010584113419, -49); (-8425072399072433, -50);
   (-2695942899827739, -48); (-6121252744351527, -50); (-81447066977429, -43); (-6085996637727453, -50);
   (-7951369626175739, -50); (-6926562373928959, -50); (-7182385834240639, -50); (-6293347075141145, -53);
   (-5076850117903401, -49); (-1543075036419037, -47); (-6901052848380433, -51); (-683382161364217, -46);
   (-2209773423689813, -48); (-6254144484195895, -50); (-5553836408942355, -49); (-1290907308983005, -47);
   (-5001678626645143, -49); (-5053044121481373, -50); (-7775470000033, -41); (-5782092972665813, -49);
   (-1543075036419037, -47); (-6173949438123489, -50); (-613116941564105, -46); (-5553836408942355, -49);
   (-8698172523767207, -50); (-4095645628805873, -49); (-6234172343526939, -50); (-6558898699482323, -50);
   (-120137760161521, -44); (-4360234149997607, -49); (-1290907308983005, -47); (-3632327930240543, -50);
   (-6772791991789003, -50); (-5941635267432995, -50); (-1290907308983005, -47); (-2030758500389063, -48);
   (-8309916652375783, -50); (-280365800113513, -45); (-3133747200867963, -50); (-2959482687965477, -49);
   (-4137228484331415, -50); (-5001678626645143, -49); (-315951707447835, -47); (-7094034649725269, -50);
   (-683382161364217, -46); (-8219796575262717, -50)];
  [];
  [(-4059135722846717, -50); (-6679827265450581, -50); (-3276415414550035, -49); (-6163324652297711, -50);
   (-944136270620379, -48); (-1824451394214337, -49); (-159015044069643, -44); (-5592442845580005, -50);
   (-1645815602205927, -48); (-6731404217800719, -50); (-6111430678994657, -50); (-5393582423212447, -50);
   (-8940035346989565, -50); (-7339157978594321, -52); (-5271744758346903, -50); (-2305747559594811, -48);
   (-4111987826893283, -49); (-6023653786716601, -50); (-4263007025651373, -49); (-3738586378097549, -49);
   (-5706945146962369, -49); (-1532975537589151, -48); (-4698274237218241, -49); (-2310619539413975, -49);
   (-7153271537621345, -50); (-2729915468353421, -49); (-7584482478757941, -50); (-4838417018294375, -51);
   (-159015044069643, -44); (-2658368986976017, -48); (-6779449192216035, -51); (-2305747559594811, -48);
   (-6922693527501309, -50); (-5735498424617609, -50); (-5706945146962369, -49); (-1134080906982841, -47);
   (-4111987826893283, -49); (-383993032741347, -47); (-6608829447480485, -51); (-4926530800941699, -49);
   (-1102676244028191, -47); (-2570101294091521, -49); (-2154033532103953, -48); (-2658368986976017, -48);
   (-1837089538115561, -48); (-8442575892358575, -50); (-20668583228927, -42); (-2612314550584445, -49);
   (-5742785828096521, -50); (-3917859891197571, -49); (-3967881618536713, -50); (-6537918029536113, -50);
   (-7911711742050747, -51); (-3738586378097549, -49); (-2520939897211747, -49); (-845893759284435, -47);
   (-8292232909842059, -50); (-2340664089063277, -50); (-4912323246738359, -50); (-2404417227564155, -49);
   (-3738586378097549, -49); (-6917433732128139, -51); (-3392728896605115, -49); (-2658368986976017, -48);
   (-1470683153931139, -48)];
  [(-82818264575217, -44); (-8782188308575763, -50); (-442147177136099, -46); (-5131353882109615, -50);
   (-3500682968652893, -49); (-6279729285171359, -50); (-3168841562686215, -49); (-6954698938300795, -49);
   (-2066981016439063, -48); (-1543309207023103, -48); (-2941261215204331, -49); (-6954698938300795, -49);
   (-2652070397662971, -49); (-2393629262626471, -48); (-6745046569348319, -53); (-6152407664341545, -50);
   (-5165613682535997, -49); (-4308563735320163, -49); (-172176016758517, -45); (-7593694104966517, -50);
   (-6414590103152315, -50); (-1641122941322615, -47); (-3462981857805821, -49); (-8794102704485213, -50);
   (-6072743016814159, -50); (-6174284592280125, -49); (-6870379876956077, -50); (-6885668762415561, -50);
   (-7446965571483037, -50); (-1296050846883509, -49); (-1388955213886583, -47); (-6491281254953593, -51);
   (-1641122941322615, -47); (-366203056908003, -45); (-8735752865404363, -50); (-2734458797418195, -49);
   (-574516624553205, -46); (-6360898378913151, -50); (-6954698938300795, -49); (-5269593126719703, -50);
   (-82818264575217, -44); (-2892038709634895, -48); (-2591490735501159, -49); (-8724437193203169, -50);
   (-2311160718530231, -48); (-3499465779090223, -49); (-7233274012443873, -50); (-5411072762506331, -50);
   (-511770058273085, -47); (-2252894387491881, -49); (-2048815037704925, -48); (-6174284592280125, -49);
   (-2197660186196803, -49); (-4986463771874675, -50); (-6404505199707981, -50); (-4688627391497043, -49);
   (-6340389616836393, -50); (-2484767222610687, -48); (-2446148540128003, -48); (-5657575129903739, -51);
   (-4201677124354405, -49); (-6827807701248549, -50); (-2258356403053241, -48); (-3068791550182803, -50);
   (-3341480696574523, -49); (-2663782145911437, -48); (-4986340169435975, -49); (-4741277881497915, -49);
   (-6954698938300795, -49)];
  [];
  [(-1214988366071361, -48); (-3185009385991997, -49); (-8794322930451123, -50); (-2800138271449365, -49);
   (-4612183170647199, -50); (-7847281460345495, -51); (-4823700595704173, -49); (-1716005788776543, -47);
   (-5835645024121625, -50); (-7254230328116507, -49); (-3027467659635065, -49); (-7254230328116507, -49);
   (-2938003945410765, -49); (-1428924701580529, -48); (-1052410759491863, -48); (-910482797139791, -47);
   (-8313138187909629, -52); (-8701000496552507, -51); (-2055500670579891, -48); (-7091538708220649, -50);
   (-1095550575817073, -48); (-3364947146901737, -49); (-6372472604935337, -50); (-2721082166218983, -48);
   (-2517290313283185, -49); (-3643773906909647, -49); (-1607452324797045, -49); (-384923768771485, -45);
   (-147729771651581, -44); (-2904511007387917, -49); (-8270557809964213, -51); (-4787368638235897, -49);
   (-4353634639486381, -51); (-2390187690590667, -48); (-2341019207051573, -49); (-7254230328116507, -49);
   (-7254230328116507, -49); (-246486534833109, -45); (-5127928480677861, -50); (-3041804404542751, -48);
   (-1117081544583715, -47); (-3317883295691357, -48); (-7595565210857007, -50); (-6297252729975229, -50);
   (-5832232726383221, -51); (-1414818252011855, -47); (-349791158871429, -45); (-6247071299333329, -50);
   (-2184847522289481, -48); (-4645109860072229, -49); (-6500691848798761, -50); (-4988158781312755, -49);
   (-5074196888732393, -50); (-3317883295691357, -48); (-1253391875821441, -48); (-6584482987620683, -50);
   (-3246687422792597, -49); (-7254230328116507, -49); (-2689182977161545, -48); (-349539608448705, -47);
   (-3144429497370895, -49); (-1427915247269625, -49); (-1716005788776543, -47); (-8410473717940759, -50);
   (-3538833537997949, -49); (-8773407779665083, -50); (-4400690943579535, -49); (-6935395095115555, -50);
   (-2479390406998063, -48); (-2336561549780339, -48); (-5489104005306399, -49); (-5009284269734099, -51);
   (-3627402641488303, -49); (-5768573127333425, -49); (-5191828470071717, -49); (-2319835343887253, -48)];
  [(-6308954755026695, -51); (-5603295121577443, -50); (-458632125513169, -46); (-856890998881273, -47);
   (-6068541240347865, -50); (-8584702156987609, -51); (-4799257062264369, -49); (-1634037891671163, -47);
   (-3596972254970045, -49); (-5274223285848005, -50); (-7831070048844659, -50); (-3079097543503555, -49);
   (-2537336742448999, -49); (-1216894287765523, -47); (-814421952917189, -48); (-5733849789525755, -50);
   (-1221509045073247, -47); (-3959369198991019, -49); (-6634576652919409, -50); (-4600723234646567, -49);
   (-4018842716243699, -49); (-4916890474474949, -49); (-1611969761512289, -48); (-4633299674828533, -49);
   (-79393336619549, -44); (-5721608592636235, -49); (-3685273889013707, -49); (-1580925630186639, -48);
   (-7874746794478215, -50); (-4950687652734147, -52); (-8547724905220943, -50); (-3400370043938193, -48);
   (-2288474758595031, -49); (-2730587351251971, -48); (-6020325741855717, -49); (-890671782714017, -47);
   (-8920370598021713, -51); (-1473676772509279, -47); (-8947499417279725, -50); (-4540732692566851, -49);
   (-183835587240637, -45); (-1538698532479937, -49); (-2696278417679201, -48); (-5383402975891027, -49);
   (-6192339184118723, -50); (-4440470816552201, -49); (-5482420618383991, -49); (-8016967652182509, -50);
   (-5331401419625901, -49); (-658022622715721, -47); (-3178439026792315, -48); (-5666681192754805, -50);
   (-7123944547352599, -50); (-972344252761913, -47); (-2678400983282695, -48); (-6003710340386253, -51);
   (-1580137061642729, -48); (-2421289520903087, -49); (-7706773085715657, -49); (-8588952391079681, -50);
   (-6852879563130025, -50); (-3985282055259343, -49); (-8237826014068303, -50); (-8249816786268113, -51);
   (-8007532681549491, -50); (-2465655423649215, -49); (-4724085571006111, -49); (-7569447590175011, -52);
   (-3210770502557607, -49); (-3234922806124035, -48); (-5658994126531679, -49); (-8425562913720045, -50)];
  [(-5276685027776801, -50); (-5789504883089889, -50); (-8220867998264965, -50); (-1974241694922803, -48);
   (-396008630478117, -46); (-2227907417957919, -49); (-6267880831594379, -50); (-4338690562855941, -49);
   (-615706547265631, -47); (-1182224433966569, -47); (-1621620267541597, -48); (-2777861870814601, -49);
   (-4338690562855941, -49); (-7788001456934355, -51); (-5332991755642973, -50); (-4338690562855941, -49);
   (-1182224433966569, -47); (-1974241694922803, -48); (-3379002703735249, -49); (-1182224433966569, -47);
   (-3757820195665559, -50); (-6865315130033341, -50); (-3633447708093529, -49); (-1974241694922803, -48);
   (-8379505014053141, -52); (-1182224433966569, -47); (-5276685027776801, -50); (-8220867998264965, -50);
   (-548932522887271, -47); (-1182224433966569, -47); (-4338690562855941, -49); (-5521077934002911, -50);
   (-2564481387855669, -50); (-6142651899385265, -50); (-1182224433966569, -47); (-1193827348902133, -48);
   (-315828070897175, -46); (-1974241694922803, -48); (-7440453652244295, -50); (-3070201333736077, -50);
   (-3633447708093529, -49); (-5750581199067911, -51); (-2853033362072859, -49); (-5487466485573709, -50);
   (-8135117929048829, -51); (-1182224433966569, -47); (-5057371736989867, -52); (-396008630478117, -46);
   (-6142651899385265, -50)];
  [];
  [(-7316415266732603, -50); (-5755586574691263, -50); (-8253001253188861, -51); (-881294301359819, -48);
   (-7316415266732603, -50); (-5755586574691263, -50); (-6111593020858419, -51); (-7316415266732603, -50);
   (-1291176119129223, -49); (-3888587737719523, -50); (-6536000920711933, -50); (-6536000920711933, -50);
   (-7316415266732603, -50); (-7316415266732603, -50); (-3163106232992053, -50); (-7316415266732603, -50);
   (-7316415266732603, -50); (-5299073447244347, -50); (-4428539024110611, -50); (-7316415266732603, -50);
   (-199475721915189, -46); (-6536000920711933, -50); (-6536000920711933, -50); (-7211265692659687, -51);
   (-6079487793265017, -50); (-2421280159898715, -49); (-4428539024110611, -50); (-8389515765299847, -51);
   (-2421280159898715, -49); (-2421280159898715, -49); (-2421280159898715, -49); (-6536000920711933, -50);
   (-1652645679659257, -50); (-5755586574691263, -50); (-6536000920711933, -50); (-5755586574691263, -50);
   (-2487586114335297, -49); (-4518659101223677, -50); (-1372381429709303, -49); (-2562757605593555, -49);
   (-4001271694385317, -50)];
  [];
  [(-4883461118418453, -50); (-6676681868453203, -50); (-3936495656648839, -49); (-1428714675803299, -48);
   (-310575138908465, -46); (-1949054249577391, -49); (-1275675464823371, -47); (-638100222129795, -47);
   (-6463772795698227, -50); (-6100624619217103, -50); (-3201649489332249, -49); (-7575020403831965, -51);
   (-2219589042001579, -48); (-2008503678963077, -50); (-4531560946001159, -50); (-4136652916068909, -49);
   (-3548509196393689, -49); (-1981456943139933, -49); (-7194580003314311, -50); (-1602632941313011, -48);
   (-148997235021505, -44); (-5914022911205233, -50); (-234090408089, -35); (-8562471342999941, -51);
   (-7053737724345159, -49); (-5198346514143779, -49); (-5856388515763649, -50); (-5741910632253523, -50);
   (-1022049304767595, -47); (-2294694201155411, -50); (-4478404392080715, -49); (-2405681004269801, -49);
   (-832941318916853, -46); (-6147704726505889, -49); (-1762808733730889, -48); (-4847890515952843, -50);
   (-6045066814601031, -49); (-8900218989063889, -50); (-832941318916853, -46); (-7712169637347977, -50);
   (-4509667444501485, -50); (-6026110707266663, -51); (-2526127349366571, -48); (-1489571924143103, -47);
   (-5537302800101991, -50); (-4155955948386565, -49); (-1275675464823371, -47); (-3176965056948217, -49);
   (-8559880983581845, -50); (-4727756882641973, -50); (-1489571924143103, -47); (-4896937603877047, -50);
   (-5894736726946083, -50); (-6530367154658969, -50); (-2620835864333309, -48); (-430822982467417, -47);
   (-2833497583462559, -49); (-1965991803203639, -49); (-832941318916853, -46); (-7053737724345159, -49);
   (-8559880983581845, -50); (-3086338232846175, -49); (-1204665519135495, -47); (-2283075805004931, -48);
   (-1169517051135419, -49); (-1873222871529287, -48); (-4035598549380993, -49); (-5529240989772095, -49);
   (-5275247965939129, -51); (-3450713093624153, -49); (-832941318916853, -46); (-1349041484542879, -47);
   (-8039920090121701, -50)];
  [];
  [(-2500990317908357, -49); (-5395610133376745, -54); (-1055391572449011, -48); (-1720575971887687, -49);
   (-2500990317908357, -49); (-3189914640138173, -50); (-5056251377763081, -51)];
  [(-1326162822554575, -48); (-6545288486669209, -50); (-587513075536641, -46); (-1757148308236977, -48);
   (-7804792924177077, -51); (-7112790858656641, -51); (-2603601174016903, -48); (-6032676732611009, -49);
   (-1378130659030487, -48); (-3806408529401569, -50); (-3826663018908153, -49); (-2580287787082433, -49);
   (-4920802077707935, -50); (-8585149054939295, -50); (-392395957719129, -47); (-133915262516629, -45);
   (-8287131732793087, -50); (-3657305066521253, -49); (-180856027794699, -45); (-8585149054939295, -50);
   (-3582478625812211, -49); (-2341390850239991, -48); (-6218603830566965, -50); (-1084231054746887, -47);
   (-1049361496389215, -48); (-694461305196507, -46); (-1599783401337377, -48); (-4912274976775015, -50);
   (-1624052504688323, -48); (-2769824604475319, -50); (-2740259475156899, -48); (-3130547831163531, -49);
   (-1999955330939881, -48); (-6990708914468753, -50); (-5359676725771747, -50); (-5090311777303463, -49);
   (-1084231054746887, -47); (-1565233324083617, -47); (-486214532663019, -46); (-2031244605914833, -49);
   (-3166140713353449, -50); (-1215513803395001, -47); (-2254089999018973, -48); (-5536155585793167, -50);
   (-251949606687437, -45); (-4795749259143423, -49); (-3538348622083799, -49); (-7085668605633313, -50);
   (-5286283837092123, -50); (-1308445686500769, -48); (-5960714218615223, -50); (-100024748096073, -44);
   (-5252262386590339, -49); (-7547221335866933, -51); (-5987562582461853, -50); (-6960125779497161, -51);
   (-6651140469344803, -49); (-3910962177184201, -49); (-4799808858923259, -50); (-2099265719144839, -48);
   (-260648629647287, -45); (-3685895599398141, -51); (-566516846047221, -47); (-5743089103901251, -51);
   (-1071027238776931, -47); (-5964395999958095, -51); (-6515042714340471, -50); (-6032676732611009, -49);
   (-331327839825861, -45); (-2699627745085547, -49)];
  [(-4586650344305259, -51); (-441281580702527, -47); (-441281580702527, -47); (-441281580702527, -47);
   (-4586650344305259, -51); (-1374919149799773, -49); (-441281580702527, -47); (-4586650344305259, -51);
   (-7877695814315505, -52); (-441281580702527, -47); (-1374919149799773, -49); (-441281580702527, -47)];
  [(-338993061770383, -46); (-3219268216345295, -49); (-8607944639144583, -50); (-2867083179930017, -49);
   (-5943317918673687, -50); (-2234399027559465, -49); (-208729499551939, -44); (-5665378179927419, -50);
   (-7644550245542205, -50); (-8314661719751325, -51); (-863396144934401, -47); (-2311309778566855, -49);
   (-8787035564010099, -50); (-668965215496703, -49); (-2668619279640225, -49); (-597965619376923, -46);
   (-7922489984288473, -50); (-2376985380274383, -49); (-3397939321733021, -49); (-1421548689531011, -48);
   (-6289136812651713, -49); (-6725286302079575, -50); (-4139955836578305, -49); (-2899601998586765, -49);
   (-644355906386123, -46); (-6485301839654583, -50); (-5106862016443199, -50); (-3699478281138589, -49);
   (-7954321477140347, -52); (-8453469909213847, -50); (-6754150921380829, -51); (-208729499551939, -44);
   (-208729499551939, -44); (-2445129364948625, -48); (-666589381269365, -47); (-6060880248928255, -49);
   (-4662002166173791, -49); (-5976411830938023, -50); (-8738731603600643, -51); (-7446583061240833, -51);
   (-1308851466087763, -47); (-6060880248928255, -49); (-4957627748843301, -50); (-4677860960050031, -49);
   (-5773310987822777, -49); (-5952674481442273, -50); (-2024387605477977, -48); (-4583425122520051, -50);
   (-2015866963193159, -49); (-5677576564762493, -50); (-3794808702124503, -49); (-208729499551939, -44);
   (-8040836508370247, -51); (-530954547143137, -47); (-3003607954794091, -49); (-1688408033131917, -48);
   (-5062675004921303, -50); (-1205988193865167, -47); (-4646577914930801, -49); (-3458644358165487, -50);
   (-7778922748842681, -50); (-8846831911383501, -50); (-4746181048847753, -49); (-3198419416834961, -50);
   (-6363915346867543, -50); (-6060880248928255, -49); (-177208533622435, -44); (-4536383514355191, -49);
   (-208729499551939, -44)];
  [(-8253213197262967, -53); (-7248263982714163, -52); (-7248263982714163, -52); (-7248263982714163, -52)];
  [];
  [(-2410548496358519, -49); (-6340342536343049, -50); (-8761722939701467, -50); (-1465636305737243, -48);
   (-4108156365185997, -50); (-7724396883436871, -51); (-5345182688076961, -49); (-5789044722368717, -49);
   (-5453400071336113, -50); (-1673769430051997, -47); (-2709377131854911, -49); (-402736955715537, -46);
   (-5053678271181029, -50); (-4765633442054199, -50); (-2034897449697237, -48); (-8950730189817095, -52);
   (-4709740904947751, -50); (-8590804563955231, -50); (-954321108215589, -47); (-5034652352307847, -50);
   (-3759329878366875, -49); (-6735190049525051, -50); (-1292645246408731, -47); (-5764344876427803, -50);
   (-8262945872390149, -50); (-2025802141739401, -49); (-5008630376348047, -49); (-1630451725156573, -48);
   (-4962241136262905, -50); (-6661382508378601, -50); (-5059424382828125, -51); (-641781128520831, -46);
   (-1673769430051997, -47); (-4360874142286799, -50); (-4761914783393693, -49); (-7704523032285057, -50);
   (-5161467785511271, -50); (-6076613983474195, -49); (-2323649380512005, -48); (-3656182278827905, -49);
   (-924822741598809, -48); (-3171091870916837, -50); (-5345182688076961, -49); (-73854983614737, -43);
   (-4676411635086715, -50); (-2181350109483827, -48); (-1292645246408731, -47); (-6785099601619547, -50);
   (-7530964796227819, -50); (-4878848108089633, -50); (-1673769430051997, -47); (-1145153123936429, -48);
   (-5906984978909217, -50); (-3387785738921403, -49); (-5524456201176983, -49); (-3400307305052993, -50);
   (-5453400071336113, -50); (-3540976025043259, -50); (-4180994952827531, -49); (-5142029455696399, -50);
   (-8161036159731973, -50); (-2029636081992969, -48); (-2251135399799657, -50); (-1313746630829321, -48);
   (-4611185921904071, -50); (-8799256412175215, -50); (-2919906061706997, -50); (-1812002476209535, -48);
   (-2957331687093659, -48); (-1421601702615965, -47); (-1473114259151629, -48)];
  [(-4124803716089579, -50); (-6688778740137819, -51); (-6603795076617623, -52); (-4124803716089579, -50);
   (-4124803716089579, -50); (-4124803716089579, -50); (-3567121356055139, -51); (-4124803716089579, -50);
   (-5127950048096479, -51); (-4124803716089579, -50); (-5775752485243985, -51); (-6688778740137819, -51);
   (-5127950048096479, -51); (-4124803716089579, -50)];
  [(-3863298307105461, -50); (-3381539703871433, -49); (-4002709344651591, -49); (-2567603341422973, -49);
   (-2667945355306377, -49); (-2220508705604443, -49); (-1249374398066677, -47); (-3106589574927123, -48);
   (-2466402720595387, -49); (-7347468711416975, -49); (-2915241537106115, -49); (-5537993234379619, -50);
   (-3008019285332095, -49); (-8998575175872421, -51); (-1146511125844081, -47); (-2798631065713297, -51);
   (-4657204296951233, -50); (-4600832031556461, -49); (-7546442423908563, -50); (-5005102390145641, -50);
   (-7544475786016673, -50); (-6229127185957775, -50); (-1247225692385455, -47); (-3401268068371615, -49);
   (-7431464390085275, -50); (-2406578351423321, -49); (-7347468711416975, -49); (-2921028426890323, -48);
   (-6421525723285913, -50); (-2544833046202079, -49); (-1130282566925997, -47); (-160918891147891, -46);
   (-1298033803899133, -47); (-2328829037692131, -49); (-6500748410959723, -49); (-625230589719449, -46);
   (-6141312112697067, -50); (-7887543869600027, -51); (-6293737763116313, -49); (-8295795492254705, -50);
   (-6387780852296283, -49); (-6818404959157537, -50); (-3868837942213655, -48); (-2495235070532345, -49);
   (-6939113147456729, -51); (-5145195542728099, -49); (-2584088141320921, -48); (-4535482968096005, -50);
   (-3973168405105601, -49); (-2348119451975967, -48); (-835495196727777, -47); (-4306031730941599, -49);
   (-4814460179903637, -50); (-6729004974683181, -49); (-5818758186612979, -51); (-5184960683398421, -50);
   (-3395704276912783, -49); (-434828846150415, -45); (-5198287735343567, -49); (-3904810664552755, -50);
   (-2550299705829959, -49); (-575225432896489, -47); (-3868837942213655, -48); (-7899589440203939, -50);
   (-99696957505405, -44); (-1181880487267791, -47); (-2263365902997153, -48); (-3772508878228541, -50);
   (-6475715940278245, -50); (-885831684060507, -47); (-1205147769037765, -47); (-2915157808412431, -50);
   (-3221740459147477, -49); (-1422474231310833, -47); (-4967972851398623, -49); (-7071706241203805, -50)];
  [];
  [(-1154633307266471, -48); (-7039017999645513, -50); (-2087152347012413, -48); (-5786560626074079, -50);
   (-1410504070626129, -48); (-8765408751564939, -51); (-4841436025931125, -50); (-6408946636141359, -50);
   (-2516732907851183, -49); (-1573587377524901, -48); (-5538412213007623, -50); (-4690130518853761, -49);
   (-5212983344300015, -52); (-5538412213007623, -50); (-5308594255587555, -49); (-2087152347012413, -48);
   (-1268420200394161, -48); (-247418701466033, -45); (-3453203045386175, -49); (-5308594255587555, -49);
   (-1742690185897505, -48); (-4603351400825143, -49); (-5049379860247241, -50); (-740742565481543, -47);
   (-6845531811380907, -50); (-7332070715733285, -50); (-2556104754896597, -50); (-2087152347012413, -48);
   (-3750102899063379, -50); (-2849400714298945, -48); (-7189360982162029, -50); (-8717169715100533, -51);
   (-1966837552893891, -48); (-7302044938827823, -50); (-2608804191325501, -49); (-3615667215722661, -50);
   (-5308594255587555, -49); (-1802254276231769, -49); (-4792768430758619, -49); (-4792768430758619, -49);
   (-6750862637546521, -50); (-158760552870753, -44); (-5176495907764001, -50); (-5042414067969977, -51);
   (-5778875272637205, -50); (-7427273871036937, -50); (-2849400714298945, -48); (-1082154042654509, -48);
   (-5478189307604173, -50); (-4811848632361359, -50); (-1229596770644305, -47); (-6646859525016267, -50);
   (-8805122515496569, -50); (-4603351400825143, -49); (-6237537215762543, -51); (-4348906396466863, -49);
   (-7111681914582065, -50); (-2849400714298945, -48); (-824346769189193, -48); (-7216492413240029, -50);
   (-2849400714298945, -48); (-4603351400825143, -49)];
  [(-4478920734214699, -50); (-6378346853739055, -50); (-8136209192899743, -50); (-5832878287766331, -50);
   (-2358953300865209, -49); (-983607523587391, -48); (-5487304916318715, -49); (-1664807013579751, -47);
   (-1331538606151501, -48); (-3948077763893295, -48); (-6632724683666693, -50); (-4452413218765359, -48);
   (-6494737493434863, -50); (-6389366162520921, -50); (-7734204918499713, -49); (-1214684360646603, -48);
   (-4515573011729191, -49); (-7062478583406881, -52); (-2350896251205307, -49); (-8846732326872627, -50);
   (-7315053809349039, -50); (-5209881345401497, -50); (-1849245291551391, -48); (-3278902686974929, -49);
   (-159757850072583, -44); (-3132633059066921, -49); (-967043004773093, -47); (-4771137436896027, -50);
   (-7554931405399691, -49); (-5742865409721151, -49); (-399751868050509, -46); (-678464093346735, -47);
   (-1666339224370497, -48); (-2204153615391773, -50); (-4410933361009943, -49); (-3468233834332949, -48);
   (-969192267747503, -48); (-6725534008755585, -49); (-5050340116022757, -49); (-7308722019027643, -50);
   (-2512762763908051, -49); (-190845946000681, -44); (-4510734860803257, -49); (-6572448936290385, -49);
   (-3576296773778869, -49); (-3680740054628971, -50); (-3201832867699457, -50); (-2375231430476377, -48);
   (-5382072760406133, -49); (-7429167467646101, -51); (-8323858449485343, -50); (-5110917197069455, -49);
   (-3406731224540659, -49); (-6279397936302113, -50); (-2330248901484835, -49); (-3226108703237797, -48);
   (-563313305252755, -47); (-5480338347777273, -50); (-1657001555721213, -48); (-7608586266681113, -49);
   (-2703720062651221, -48); (-6801262263191091, -51); (-5190289268526469, -50); (-4603369699805793, -50);
   (-7009207406884055, -49); (-4452413218765359, -48); (-1057557350491797, -47); (-2499163915723283, -49);
   (-2395618617396903, -48); (-8725791516436821, -50); (-5864081570169477, -51); (-3489436648135731, -49);
   (-3951821769023043, -49); (-4582312972781535, -49); (-1445565207670843, -49); (-6963722435654905, -50);
   (-5817160259296799, -49); (-5153097689943885, -49); (-1724281022263787, -48)];
  [];
  [(-1365454185511523, -48); (-6499878648656233, -50); (-5031603922030475, -49); (-3500003623759325, -49);
   (-5570225351796343, -50); (-7847354641499345, -51); (-5634208864888029, -49); (-1477862119808731, -47);
   (-5689974762181605, -50); (-6026441133432251, -50); (-3825775342188143, -48); (-7377148436639147, -50);
   (-1669644842597699, -48); (-596794304485917, -47); (-4538758837115283, -49); (-4989819007448013, -51);
   (-217646668097887, -46); (-7577501209724341, -50); (-5649690145217485, -50); (-4834707359713955, -50);
   (-8481135127299045, -50); (-6545613794196727, -50); (-1167215792416685, -47); (-6757699517235837, -50);
   (-4521165219205349, -49); (-1250921065419335, -48); (-7261343511365951, -49); (-326313809497747, -45);
   (-5633006712765235, -50); (-1279404510021241, -48); (-111833279864129, -44); (-295410631898391, -47);
   (-5993978898202643, -49); (-725415053633419, -47); (-3103806281532645, -48); (-2687757580734425, -48);
   (-879939570153143, -47); (-4946886483290661, -50); (-5775686310582869, -49); (-3816541330919171, -49);
   (-6556100656603539, -49); (-3471110419015663, -49); (-125019019437655, -45); (-24187296572093, -43);
   (-4750505421287323, -49); (-4780581116377741, -49); (-1175896635525477, -48); (-6746936115399993, -50);
   (-5395622654405989, -49); (-5401179405423675, -50); (-7626906563483551, -50); (-294939118804845, -46);
   (-3045360996167473, -48); (-3671604388057653, -50); (-4559585507223581, -50); (-305118677952489, -46);
   (-3825775342188143, -48); (-1276502503886377, -47); (-5974363631854161, -51); (-8752815050993895, -51);
   (-4676730605476613, -50); (-2323391935511975, -48); (-5775686310582869, -49); (-3316160401274387, -49);
   (-4082338168315979, -50); (-1010043037504359, -47); (-8439813061781151, -50); (-3063717605245691, -50);
   (-1530568513793425, -48); (-1014726913658535, -47); (-7576322873764519, -50); (-1138185013857391, -49);
   (-5122003374271769, -50); (-5993978898202643, -49); (-7831689759892345, -50); (-7191113562702011, -50);
   (-7261343511365951, -49); (-214723010573613, -44)];
  [(-5316839283515081, -50); (-5870666761159213, -50); (-8992324145241893, -50); (-6362925745080891, -50);
   (-4978685977082453, -50); (-3472259166689083, -50); (-5504832982365075, -49); (-2747594295117661, -49);
   (-712138565637747, -47); (-6075942584968929, -50); (-5813502204751093, -50); (-4306909849244061, -50);
   (-551172869324041, -46); (-2412534248814729, -50); (-191448708405837, -46); (-2747594295117661, -49);
   (-3442431124320285, -49); (-1239410126566345, -48); (-3291411925562195, -49); (-3313932926819581, -49);
   (-4724418636344405, -49); (-6497809904789555, -50); (-5504832982365075, -49); (-2387590914668755, -49);
   (-1149699996131451, -47); (-2676639677160427, -49); (-1219296216343703, -48); (-7581838435717069, -50);
   (-541932591222565, -48); (-1278656452338685, -47); (-5600819117994971, -50); (-5504832982365075, -49);
   (-7143340091101561, -50); (-2494679047008929, -49); (-8992324145241893, -50); (-1846383493343267, -48);
   (-2533518580798911, -49); (-3559132568288583, -50); (-1278656452338685, -47); (-5504832982365075, -49);
   (-1136808414902899, -48); (-5994516758833631, -50); (-1278656452338685, -47); (-3238761435561323, -49);
   (-2167105731667035, -48); (-4689845552652107, -50); (-5504832982365075, -49); (-8539040419325123, -51);
   (-2751811168418685, -49); (-725301188137965, -47); (-3132102928984673, -50); (-574886685008167, -47);
   (-4450172986565383, -50); (-6801424089696399, -50); (-1271100892825137, -48); (-551172869324041, -46);
   (-7636771277010269, -50); (-5309673732819577, -51); (-3238761435561323, -49); (-1278656452338685, -47);
   (-4724418636344405, -49); (-5041754762371273, -51); (-1404857364380503, -48); (-1278656452338685, -47);
   (-1278656452338685, -47); (-3649441772163695, -49)];
  [(-2309867970992749, -49); (-6946544168139569, -50); (-137655672409185, -44); (-3325850021853769, -49);
   (-345939652982177, -46); (-8385319565944825, -51); (-741184781458373, -46); (-2648073587737957, -49);
   (-5504739348978917, -50); (-1717575070569887, -48); (-6613714275438995, -50); (-4557047157919549, -50);
   (-4795188690104255, -49); (-7939727704921837, -52); (-1494471071936577, -49); (-8010938348640129, -50);
   (-3982424039657555, -50); (-8429240152204641, -51); (-8127514789414043, -50); (-2695553433320237, -49);
   (-1306058849226143, -47); (-3399446826900891, -49); (-7336911234424557, -50); (-2598194394221005, -49);
   (-5311014514933191, -49); (-5830635076323757, -50); (-2670881881654511, -49); (-976092870531701, -47);
   (-4774149043882385, -51); (-741184781458373, -46); (-2709229003470459, -49); (-741184781458373, -46);
   (-2850610843971763, -48); (-7677846059378217, -50); (-5133044817834795, -50); (-2850610843971763, -48);
   (-7099964783297265, -50); (-6319685424677319, -49); (-3799168873515287, -49); (-2194511711891265, -49);
   (-7101863879692589, -51); (-4605771660170779, -49); (-4692550778199397, -49); (-2468800074637935, -49);
   (-7150386637323051, -50); (-5311014514933191, -49); (-2367166534013627, -49); (-7013010015850803, -50);
   (-1122386982627761, -48); (-6319685424677319, -49); (-27052810835417, -43); (-2295082124266597, -49);
   (-5457901403378763, -50); (-741184781458373, -46); (-873181022830159, -48); (-8747189727784653, -51);
   (-4810218444122475, -50); (-8573838707892143, -50); (-1495339591548233, -48); (-2479743290888779, -49);
   (-8636404798130603, -50); (-1306058849226143, -47); (-3346769447113271, -50); (-3348371023111155, -49);
   (-8573838707892143, -50); (-8514567133265059, -50); (-685002762577925, -48); (-5978319498202787, -50);
   (-6319685424677319, -49); (-8669041863195795, -50); (-7705647469593417, -50); (-6319685424677319, -49)];
  [(-5104093592742069, -50); (-3612647347465345, -49); (-151867239968555, -44); (-2737423448465875, -49);
   (-6014023703562743, -50); (-157039475100813, -45); (-6710957368401903, -49); (-7616990366241173, -49);
   (-4026569646979429, -50); (-1912876152473923, -48); (-624930902796187, -47); (-3239426520609693, -49);
   (-3613391596615419, -48); (-2368181043582945, -49); (-4868217251355683, -49); (-5759275915822871, -52);
   (-2080350496836215, -49); (-8973209802140473, -50); (-6008720937584759, -50); (-4939039821105663, -51);
   (-6339906865320267, -50); (-5191870485020125, -50); (-6131333165458091, -49); (-3833842742926797, -49);
   (-542990731770603, -46); (-1357417045700183, -48); (-3133547667055073, -48); (-4868345934981163, -50);
   (-1211353028003141, -48); (-972180315287995, -47); (-2824292997932403, -50); (-5414717197552297, -49);
   (-7616990366241173, -49); (-303856090938765, -46); (-6092493631668109, -49); (-1497463929940813, -47);
   (-2111685627033303, -48); (-5234234857506407, -50); (-6173052244930177, -49); (-4342247909693293, -49);
   (-918142903663983, -47); (-4164565711547959, -50); (-8460140521790573, -51); (-5599648546752917, -49);
   (-3133547667055073, -48); (-4444319190063501, -50); (-3905436252841053, -49); (-681193744149165, -46);
   (-5597072001548827, -50); (-8449458793906287, -50); (-2283769063715407, -49); (-7616990366241173, -49);
   (-7160396109737813, -51); (-624155313257599, -47); (-3036702569080167, -49); (-6131333165458091, -49);
   (-7705717057730439, -51); (-5189312475444503, -50); (-5550135092492735, -50); (-6710957368401903, -49);
   (-7616990366241173, -49); (-6145541822974003, -50); (-4654662792316569, -50); (-321445963706625, -45);
   (-4863968552294783, -49); (-6567285035883927, -51); (-4220664758692779, -49); (-7755205461619593, -50);
   (-4767002728207677, -49); (-1729414690360599, -49); (-7010584325549049, -50); (-2979709290033765, -48);
   (-4819234200732247, -49); (-4378579867161569, -49)];
  [(-5598514237851791, -50); (-5923226331438515, -50); (-8978727910652719, -50); (-4796424143949495, -50);
   (-5894396593699765, -50); (-8739443829421473, -51); (-1563622569534117, -47); (-6125262153280397, -50);
   (-8198313564632049, -50); (-5478673624505839, -50); (-106614814814719, -44); (-1563622569534117, -47);
   (-8511356022277275, -51); (-8274245696397087, -50); (-5707974330379589, -52); (-5450605634460615, -50);
   (-4810552156825471, -49); (-7633008291884309, -50); (-1988085757098039, -49); (-990326039679069, -48);
   (-5302931294830923, -50); (-5134729395740165, -50); (-5348457280297197, -49); (-5966217453631115, -50);
   (-1563622569534117, -47); (-51299623071411, -43); (-2295474777961163, -49); (-7358313891744047, -50);
   (-1980135850848319, -50); (-1182498385890851, -47); (-8769029946017893, -51); (-1563622569534117, -47);
   (-5083868759105463, -49); (-6319719363517087, -50); (-5864283105126133, -49); (-2031445509487291, -49);
   (-3901027998711425, -50); (-1854465651441563, -49); (-5864283105126133, -49); (-1563622569534117, -47);
   (-42516470596397, -43); (-1563622569534117, -47); (-2737037966057899, -48); (-1789228450734567, -48);
   (-5017562804668881, -49); (-8004753458184737, -51); (-5180757991296373, -50); (-6913468225255083, -50);
   (-1010267305333397, -47); (-3424766416850559, -50); (-4655362665161537, -50); (-6133053879234413, -50);
   (-2384416538676693, -48); (-8355671522532385, -50); (-4866546523028407, -50); (-2737037966057899, -48);
   (-1563622569534117, -47); (-6400743037029371, -51); (-2479125053643431, -48); (-2737037966057899, -48);
   (-2737037966057899, -48); (-501406139337127, -47); (-8798198135870175, -50); (-5864283105126133, -49);
   (-2479125053643431, -48)];
  [(-5572110021847677, -50); (-7040806303967077, -50); (-1244648483030005, -47); (-1322470672751175, -48);
   (-2876391054221597, -49); (-4873121501962305, -50); (-3151150261808113, -48); (-1161756616757225, -48);
   (-928869504504403, -47); (-6058472023079753, -50); (-3575265628930241, -49); (-4098586542183551, -50);
   (-4426436149822809, -49); (-2637909006356517, -51); (-4380068706212373, -50); (-1128303816962857, -47);
   (-6531916295250517, -50); (-4403780789903177, -50); (-6650541690014555, -50); (-7502699550382735, -51);
   (-44404974897519, -42); (-6714896342832225, -50); (-4247162636722787, -49); (-5654709271650255, -50);
   (-6074043959892767, -49); (-205759161766255, -45); (-2576657647664491, -49); (-233117281244485, -45);
   (-5257131719668865, -51); (-5131679004585221, -49); (-6692507696626561, -49); (-8765442008078521, -51);
   (-5912093350605891, -49); (-992480755593973, -47); (-5045800472135853, -50); (-6692507696626561, -49);
   (-8103027249684987, -50); (-6692507696626561, -49); (-1723496816924435, -48); (-4093587109020301, -50);
   (-2013606422914681, -49); (-2893237349393645, -48); (-6074043959892767, -49); (-1956066972250289, -49);
   (-7766287808694547, -50); (-1244648483030005, -47); (-333157161405493, -46); (-1800094506478797, -48);
   (-2275050118233609, -49); (-5912093350605891, -49); (-3735226827980397, -50); (-4577274609682865, -50);
   (-6326640471440801, -50); (-44404974897519, -42); (-7475582069216449, -51); (-2365841516294537, -49);
   (-5258070763321139, -50); (-44404974897519, -42); (-3682353761270415, -49); (-288867762395319, -46);
   (-8738275173603863, -50); (-36524733415143, -42); (-26631409919953, -43); (-7663862692087411, -50);
   (-3952329404465959, -49); (-602080415354143, -46); (-6419047101940163, -51); (-3342593748820423, -49);
   (-5168010962053497, -49); (-2294193379554843, -48); (-7930945603881151, -50)];
  [(-6519345924668263, -50); (-301281353398467, -45); (-301281353398467, -45); (-301281353398467, -45);
   (-3583574180907885, -49); (-5259203197659955, -50); (-301281353398467, -45); (-2101018958820839, -48);
   (-1762130741762933, -48); (-1762130741762933, -48); (-6753127066128951, -50); (-1264254088216331, -49);
   (-2101018958820839, -48); (-976487608045753, -48); (-1326530620663809, -48); (-8860588962730273, -50);
   (-3583574180907885, -49); (-2101018958820839, -48); (-3029586436611657, -50); (-301281353398467, -45);
   (-301281353398467, -45); (-1379049898165341, -48); (-1762130741762933, -48); (-6941213244488889, -50);
   (-5734825046191963, -51); (-2101018958820839, -48); (-7623661489262687, -50); (-5889274561164109, -50);
   (-8860588962730273, -50); (-6519345924668263, -50); (-1829432595956061, -49); (-301281353398467, -45);
   (-6669688907184779, -50); (-6213175779737863, -50); (-2585426006572293, -49); (-887007880775525, -48);
   (-2544466131468035, -49); (-7299760270688933, -50); (-6669688907184779, -50); (-468161723826737, -47);
   (-162942537348287, -45); (-3977233721677597, -50); (-4490336644222055, -50); (-8860588962730273, -50);
   (-1417668580648025, -48); (-2101018958820839, -48); (-301281353398467, -45); (-1317502634104133, -49);
   (-5972712720108281, -50); (-2001110811364055, -50); (-682486608099399, -47); (-8804224081256311, -52);
   (-1417668580648025, -48); (-2453470140138393, -49); (-1409509314381727, -48)];
  [(-8348968757826437, -51); (-727838487082497, -47); (-8383470650606709, -50); (-2398430765039625, -49);
   (-3642517236127101, -49); (-8866188511681727, -51); (-2774902874896769, -49); (-3236328475052359, -49);
   (-5032684104766123, -50); (-5805152758622395, -50); (-236919865802665, -46); (-6649083722508131, -50);
   (-1426751080256025, -50); (-8348968757826437, -51); (-248375093561777, -45); (-6721747637444683, -50);
   (-7724541938700287, -51); (-5201865272587417, -50); (-5594873512187207, -50); (-5362356844334359, -49);
   (-3290413233226319, -49); (-7221990529604165, -50); (-6652413615756043, -51); (-5590613408057817, -49);
   (-1134220614939289, -47); (-660939418281557, -47); (-3981115694248257, -50); (-1202549765509287, -47);
   (-8222300641552877, -52); (-8990326760570141, -50); (-7666643277995761, -51); (-4006803976102735, -49);
   (-4763725694773907, -50); (-2283259123535349, -48); (-7396478109425965, -50); (-6416769551817637, -50);
   (-5208370696668583, -50); (-5503834290029199, -49); (-5811504820079341, -50); (-126679489030349, -44);
   (-8839983778053625, -50); (-3022091999313297, -49); (-2537393791614441, -48); (-563075499178361, -47);
   (-3299642158900973, -48); (-4633978050541113, -50); (-1494875761324371, -48); (-6310203570275019, -50);
   (-6209077144791611, -49); (-5693251319962675, -49); (-7992516628148771, -51); (-5834023568861171, -50);
   (-895699767572871, -48); (-2166606385499097, -48); (-7650974170495419, -50); (-607397764082573, -46);
   (-5249389285670919, -49); (-5334477181460581, -50); (-5239555818151103, -50); (-284469084913623, -45);
   (-2537393791614441, -48); (-7438424372260983, -51); (-3608215259382535, -49); (-747602572633519, -46);
   (-5200406235047483, -49); (-319601694813679, -45)];
  [(-4169379414135357, -50); (-7367058911993659, -50); (-1870808508489633, -48); (-2764404008685459, -49);
   (-2800017459414945, -49); (-2327645538091789, -49); (-8053277948126857, -51); (-1605646912834497, -48);
   (-6058848149031487, -50); (-6666691457573591, -50); (-8218232413243031, -51); (-4990917514960439, -49);
   (-2818652284718923, -51); (-5031348562739927, -50); (-1319621694016479, -47); (-3416188117811499, -49);
   (-1182286762605871, -48); (-8603986385461245, -50); (-3402622402272499, -49); (-4888279603055581, -49);
   (-7241829979784545, -50); (-2452767980135273, -49); (-78102391296397, -44); (-1486787847736091, -48);
   (-2518454286789511, -49); (-8169769034242337, -50); (-2419621600113953, -50); (-6666691457573591, -50);
   (-1182286762605871, -48); (-5896950512799709, -49); (-2031402609239189, -48); (-2298621071542457, -49);
   (-2119689363313033, -48); (-7111414949475399, -50); (-4635607010017851, -50); (-7235395976854927, -51);
   (-1319621694016479, -47); (-5056587724621513, -50); (-575088792743763, -46); (-4990917514960439, -49);
   (-2889483694495039, -49); (-18462222631909, -41); (-8404184691820763, -51); (-467976290733221, -47);
   (-5700929239950575, -50); (-7059837997125261, -50); (-5896950512799709, -49); (-7044605323548141, -51);
   (-296103781989541, -46); (-2773098389276629, -49); (-1319621694016479, -47); (-973866871796923, -47);
   (-1555523181509031, -48); (-1319621694016479, -47); (-2330011519666061, -48); (-768085457904521, -48);
   (-18462222631909, -41); (-4041559302598329, -49); (-5896950512799709, -49); (-5737867017786629, -51);
   (-1685036438766897, -48); (-1319621694016479, -47); (-5116536166779039, -49); (-973866871796923, -47)];
  [(-6243314768165359, -53); (-6243314768165359, -53)];
  [];
  [(-3993129562537241, -50); (-6311792630923723, -50); (-7537253421504195, -50); (-2905494219793175, -49);
   (-1377091454139599, -48); (-7832293547790561, -51); (-4695089163192085, -49); (-7012373268299405, -49);
   (-6085713005346127, -50); (-3815418502516599, -48); (-5418051064955895, -50); (-6838191142248569, -50);
   (-371240584908871, -46); (-2142180928912873, -49); (-8854898830541891, -50); (-3372931226032525, -51);
   (-5095723180107493, -50); (-4538518321364231, -49); (-1960800575704627, -48); (-2839811279604761, -49);
   (-8331919855383741, -50); (-6968506022832047, -50); (-1284127223626497, -47); (-6655337963775885, -50);
   (-4440922364895025, -49); (-8816487831567379, -51); (-6724804007193927, -49); (-2667693745456409, -48);
   (-2833948339053301, -49); (-5201926844281363, -50); (-3777548449835431, -49); (-1138747720960863, -49);
   (-2539605165742555, -48); (-4554281987793459, -50); (-6035879684964111, -49); (-4912738011515387, -49);
   (-6962823235212699, -50); (-8921185761129209, -51); (-2972194830586629, -48); (-8788432982830657, -50);
   (-7240629832022863, -49); (-1850178601868683, -48); (-5648547403495429, -50); (-706563432389705, -48);
   (-4974558285219111, -49); (-5192850872838885, -49); (-3172840552676853, -49); (-8653433162337379, -50);
   (-1131196788491027, -47); (-7167390723102957, -50); (-1271324084050605, -47); (-4805936523196355, -50);
   (-428151416188283, -45); (-7764408064547007, -51); (-5982044627701387, -50); (-7127324823551307, -50);
   (-3815418502516599, -48); (-5451544576258065, -49); (-7382265811529063, -51); (-2606327729094399, -49);
   (-8775963491644661, -51); (-7240629832022863, -49); (-3815418502516599, -48); (-4262180354544245, -49);
   (-24154188395849, -42); (-4255134581051991, -49); (-2107308551395239, -48); (-5744547287274215, -51);
   (-6544504294965863, -50); (-4053644686544549, -49); (-75456015258551, -43); (-2461502987245025, -50);
   (-7265897695193563, -50); (-5818771009354657, -49); (-5247246945489297, -49); (-6127779756907597, -50)];
  [];
  [(-5748783533408181, -50); (-5748783533408181, -50); (-4968369187387511, -50); (-6815080990692343, -51);
   (-5748783533408181, -50); (-4968369187387511, -50); (-5748783533408181, -50); (-5748783533408181, -50);
   (-5748783533408181, -50); (-5748783533408181, -50); (-5748783533408181, -50); (-7115766955725375, -51);
   (-5748783533408181, -50); (-5748783533408181, -50); (-4968369187387511, -50); (-1313563074662751, -49);
   (-4968369187387511, -50); (-5748783533408181, -50); (-7873435075459281, -51); (-5748783533408181, -50);
   (-7873435075459281, -51); (-2433639961060895, -50); (-4968369187387511, -50); (-5748783533408181, -50);
   (-5748783533408181, -50); (-2860907290786189, -50); (-7873435075459281, -51); (-5287765679209687, -52);
   (-5748783533408181, -50); (-6097986938292255, -51)];
  [(-6741563287592471, -51); (-7847991896110539, -50); (-3762045338768393, -49); (-5895004729439953, -50);
   (-1685919082879029, -48); (-596781547242155, -47); (-798141163164509, -47); (-1052236776297375, -48);
   (-6611064422642953, -50); (-3017962950215999, -49); (-2687068474587683, -49); (-1727596549567275, -51);
   (-6514185735739557, -51); (-861752414254079, -47); (-7067577550089869, -50); (-4123394579601705, -50);
   (-7272853373899585, -50); (-798141163164509, -47); (-4542459684789063, -49); (-3762045338768393, -49);
   (-4542459684789063, -49); (-6492439027878915, -50); (-2351559629243569, -49); (-6713590259374219, -51);
   (-1333297655497823, -48); (-6197043126956133, -50); (-6342770412456871, -51); (-7272853373899585, -50);
   (-596781547242155, -47); (-7847991896110539, -50); (-2276388137985311, -49); (-5657091840565045, -50);
   (-4542459684789063, -49); (-5895004729439953, -50); (-1365196844555261, -48); (-2351559629243569, -49);
   (-2494680725605085, -49); (-4960115653488547, -50); (-8302391979633811, -51); (-5416628780935463, -50);
   (-4542459684789063, -49); (-7272853373899585, -50); (-4542459684789063, -49); (-519031563972341, -46);
   (-519031563972341, -46); (-4542459684789063, -49); (-6741563287592471, -51); (-6492439027878915, -50)];
  [(-579373806657509, -47); (-3354780508261739, -49); (-8353329277240227, -50); (-2842640484855949, -49);
   (-5362250180177897, -50); (-961682520776399, -48); (-2790107266016281, -48); (-810780941233979, -46);
   (-5780560900515257, -50); (-2984366583361113, -49); (-6586837121548247, -50); (-48857566133137, -43);
   (-8879372035333615, -51); (-2272038600820917, -48); (-7350534941112399, -52); (-5060442303032461, -50);
   (-2310263336455935, -48); (-982149985953411, -47); (-1318736716568443, -48); (-8590694948652677, -50);
   (-7160684473999759, -50); (-1931813207962173, -48); (-7038515978335729, -50); (-114027203065753, -44);
   (-4760904239448235, -50); (-1381639917687785, -47); (-5363557086774833, -50); (-3023765987862007, -49);
   (-7970514423926951, -50); (-2073009688975589, -50); (-5639527229414581, -49); (-1081801914000777, -48);
   (-2695398751049543, -48); (-1381639917687785, -47); (-3168769676556963, -49); (-4876513582553543, -50);
   (-3128995483074187, -48); (-8649656058668159, -50); (-3128995483074187, -48); (-7396701269622833, -50);
   (-1231486232168121, -48); (-392213904555685, -47); (-2285771811144217, -48); (-5064388707203627, -49);
   (-5243363586037479, -50); (-2065981298433187, -48); (-5111328380072059, -49); (-449588526724973, -46);
   (-4590628499225169, -49); (-2338418661422949, -49); (-8875346341834943, -51); (-2835292857164623, -49);
   (-7132017864190809, -50); (-6876454702882167, -49); (-2285771811144217, -48); (-8041653390198101, -51);
   (-5930227707462327, -50); (-8640912781890631, -51); (-7765238600117235, -50); (-741143333812851, -47);
   (-4641379055078989, -49); (-8246865777871555, -50); (-5121707151073433, -51); (-6460486825764591, -50);
   (-4102657470327931, -49); (-8602242741235447, -50); (-2209356046172819, -50); (-6936216709815333, -50);
   (-2790107266016281, -48); (-4961750795298769, -49); (-3673067113119915, -49)];
  [(-4966974189917123, -50); (-1669465584466685, -48); (-8992213962738811, -50); (-6050530216155527, -50);
   (-2824821502379297, -49); (-8096017636980429, -51); (-5549837929670067, -49); (-3449866480900547, -48);
   (-4194083574101475, -50); (-3191953568486079, -48); (-1684208571574155, -48); (-1667869099519409, -47);
   (-699300259695937, -47); (-51209457793163, -43); (-7289940134811429, -49); (-7493868841294753, -51);
   (-6607531764373779, -50); (-3916487654676769, -51); (-8411825883059847, -51); (-2010969837227731, -48);
   (-1809578387387119, -48); (-128606663173755, -45); (-6507909753731265, -50); (-6003045471969835, -50);
   (-764914826972553, -46); (-1576707750913729, -48); (-1965649052958517, -48); (-8686127001383999, -51);
   (-7289940134811429, -49); (-4898249936189077, -49); (-2882026190461439, -49); (-3811829152403485, -50);
   (-6507909753731265, -50); (-4679367287479193, -51); (-556798487737165, -46); (-4902472514390071, -50);
   (-2970022551340201, -48); (-2945531026028483, -48); (-2022213036016869, -48); (-1261380007861813, -48);
   (-6281269225067301, -49); (-2316830707498671, -48); (-7289940134811429, -49); (-1947483074224379, -48);
   (-5276485081759083, -50); (-2949595612951615, -50); (-638830963254537, -46); (-5434548924610049, -49);
   (-4513331849313157, -50); (-525870654167259, -46); (-5576026370304889, -49); (-2967426670062245, -49);
   (-5076519078008549, -49); (-7562055313031707, -51); (-5524813812001321, -49); (-4853964708772751, -50);
   (-8853646754717059, -51); (-6325840154919541, -50); (-7289940134811429, -49); (-5662805488333507, -49);
   (-454214692376315, -47); (-2636213890203411, -49); (-1937706060936543, -49); (-3097245053519341, -48);
   (-3637698718793327, -49); (-6113459292342859, -50); (-4293351914994283, -49); (-1081827234524157, -47);
   (-5994237622284959, -51); (-796755822183503, -47); (-1159677581836597, -47); (-2628587032040091, -48);
   (-5927375616084915, -51); (-6780143468297217, -50); (-5765443400238365, -49); (-5500854879046631, -49);
   (-8013764331732215, -50)];
  [];
  [(-8087457385934631, -51); (-6085204493021439, -50); (-1996261845244509, -48); (-2816225317099161, -49);
   (-3818127571462179, -50); (-6604171881463517, -51); (-5244875415199595, -49); (-6025289761220265, -49);
   (-6172981385299495, -50); (-5535112299851929, -50); (-412281858316785, -46); (-2869503749109839, -49);
   (-4646133047295783, -50); (-3558428071339655, -49); (-1185649454299915, -49); (-4702399568040913, -50);
   (-2183858987523311, -48); (-7385824519959863, -50); (-5015908632082769, -50); (-235585108203123, -45);
   (-6578917189097095, -50); (-961499333111283, -47); (-5559551396885149, -50); (-1749206062977175, -48);
   (-6973097337773183, -51); (-2313205839232901, -48); (-1572057691454845, -48); (-8778529336404111, -51);
   (-6888365065328873, -50); (-5000970627600545, -51); (-675853253060809, -46); (-1335497428907377, -48);
   (-5016618851476137, -49); (-1522712028348403, -48); (-4549997890661471, -50); (-1053305941385431, -47);
   (-6025289761220265, -49); (-7518436428833027, -50); (-2416682109994947, -49); (-1392486860119055, -49);
   (-1213667060547315, -47); (-4539632560437183, -49); (-6511173456383157, -50); (-4311375996713725, -49);
   (-2817541294104965, -48); (-6810685997748909, -50); (-1213667060547315, -47); (-2488687988674901, -49);
   (-6025289761220265, -49); (-615744510891727, -47); (-6096520165222633, -50); (-54862609278747, -43);
   (-4338842417360325, -49); (-1703036861138275, -49); (-3105051163443837, -49); (-6062685329577455, -51);
   (-9001586053294403, -50); (-6935284350324153, -50); (-8860664882302357, -50); (-4581351639909269, -49);
   (-5921471743511545, -51); (-2816225317099161, -49); (-5937679784584317, -50); (-5035751779573361, -51);
   (-6511173456383157, -50); (-6025289761220265, -49); (-5119256763380995, -49); (-3171750376683293, -49)];
  [];
  [];
  [];
  [];
  [];
  [];
  [(-4389838945095567, -50); (-6377318516079687, -50); (-8152913549463075, -50); (-5610391501539271, -50);
   (-4884166958083533, -50); (-8724716075139645, -51); (-1411902225665911, -47); (-1592725255202705, -47);
   (-2782754500758649, -49); (-6989364757544613, -49); (-1601131921379935, -48); (-8028472806984463, -49);
   (-3037163409403257, -49); (-6036501144239, -40); (-3648520755793615, -48); (-3975194817025415, -50);
   (-1977387955520049, -48); (-902971643736923, -49); (-4525084941836791, -50); (-8359598887781819, -50);
   (-3592968101854089, -49); (-2108184400497397, -49); (-6844937377277285, -50); (-6203898860846903, -50);
   (-5265660312288511, -49); (-6360197109055753, -50); (-8110458983732169, -50); (-8646936543718257, -49);
   (-502005070350377, -47); (-6584534685673467, -49); (-630022969248075, -46); (-5837024150564487, -50);
   (-4888959754472213, -50); (-4036645452929813, -49); (-2343374172016653, -50); (-1132396073130363, -47);
   (-7350696372868651, -49); (-8466533974862937, -51); (-6239387551219665, -49); (-4985347819387011, -49);
   (-1966327522784271, -48); (-4950696443148701, -50); (-3166360146680501, -48); (-2206405468549109, -48);
   (-3366116318067429, -48); (-957147534204985, -47); (-4128364685353961, -48); (-8655366950586339, -51);
   (-7735013974047439, -51); (-4970379287389681, -49); (-1300688502763455, -47); (-4748305932176911, -50);
   (-515320734985413, -46); (-607973615050485, -46); (-6328373374427845, -50); (-7458003186973555, -50);
   (-4538658350103629, -50); (-6570282026847981, -49); (-8850187510224957, -51); (-2630715604740509, -49);
   (-6504289099686673, -50); (-3648520755793615, -48); (-5419352338940185, -49); (-6858601853156677, -51);
   (-1351648759082317, -48); (-7590488791760983, -51); (-1733255694802929, -47); (-477391602123383, -45);
   (-8364849730945197, -50); (-1485199419953987, -48); (-7437742000115267, -50); (-853184884799737, -47);
   (-6130184770358893, -51); (-6868536704665911, -51); (-860598013895763, -47); (-2878764253446847, -49);
   (-6038116448826823, -51); (-3454760247202967, -49); (-5853103390276233, -49); (-5158648610598569, -49);
   (-206334358769291, -45)];
  [(-7445386998649931, -51); (-7572130557680879, -50); (-1966881614650915, -48); (-6791716211660209, -50);
   (-6033164686697111, -50); (-8168160246528697, -51); (-1307500850037859, -47); (-7488692398736707, -50);
   (-8269106744757377, -50); (-7338349416220191, -50); (-7488692398736707, -50); (-1925882976286927, -49);
   (-5408327419599127, -51); (-7662250634793945, -50); (-4839796227141101, -49); (-7488692398736707, -50);
   (-4839796227141101, -49); (-4839796227141101, -49); (-8269106744757377, -50); (-1307500850037859, -47);
   (-2672355814093247, -49); (-3993075926683849, -49); (-6979802390020147, -50); (-1307500850037859, -47);
   (-6894014664516501, -53); (-2305769831708821, -48); (-2643833212068941, -50); (-1307500850037859, -47);
   (-8269106744757377, -50); (-305015098613841, -46); (-4953963172410091, -50); (-4372072606533857, -50);
   (-3543556056291495, -49); (-1307500850037859, -47); (-1307500850037859, -47); (-1307500850037859, -47);
   (-4818532989457533, -50); (-799309332355047, -47); (-1966881614650915, -48); (-4323970402312165, -49);
   (-4651426919521287, -50); (-6033164686697111, -50); (-6929754154682655, -50); (-926376666394593, -47);
   (-8442664980814615, -50); (-4323970402312165, -49); (-3295874051289663, -50); (-2342127157529443, -49);
   (-6055460462925119, -50); (-8269106744757377, -50); (-6522927132079985, -51); (-8269106744757377, -50);
   (-4839796227141101, -49)];
  [];
  [(-5069458452653233, -51); (-6630287144694573, -51); (-7132761751968975, -51); (-4346795222005157, -50);
   (-5571933059927635, -51); (-2450275675844955, -51); (-5127209568025827, -50); (-6219735497075141, -51);
   (-5127209568025827, -50); (-4346795222005157, -50); (-4346795222005157, -50); (-7780564189116481, -51);
   (-4346795222005157, -50); (-5127209568025827, -50); (-5127209568025827, -50); (-7780564189116481, -51);
   (-7780564189116481, -51); (-7132761751968975, -51); (-4346795222005157, -50); (-5127209568025827, -50);
   (-4346795222005157, -50)];
  [(-4768934082180521, -50); (-3109956474634477, -49); (-4217157307583171, -49); (-2909818638859409, -49);
   (-2276047469369159, -49); (-8533229778691699, -51); (-374688787374879, -45); (-7652592384171707, -49);
   (-2848459879358867, -49); (-7652592384171707, -49); (-7471739126615253, -50); (-6317782947071029, -50);
   (-7652592384171707, -49); (-399838321756889, -46); (-2585007483584883, -49); (-4539800536910703, -49);
   (-4638132745230687, -52); (-5488290133134443, -50); (-582690415719037, -46); (-7886713061095525, -50);
   (-5361561142807207, -50); (-7596212125327491, -50); (-6849191704569419, -50); (-3104327131430355, -48);
   (-6471150252906155, -50); (-142948380700461, -44); (-2498882578242815, -49); (-7652592384171707, -49);
   (-2817625282341725, -48); (-3425212445942651, -49); (-5530088637545193, -50); (-7806043827620615, -50);
   (-2506119629027947, -50); (-1140068425125685, -47); (-863763248032243, -48); (-1815596302790343, -47);
   (-5222062651759373, -49); (-4658756981348157, -49); (-5531999858351849, -50); (-3321960737213789, -48);
   (-1262241038589623, -47); (-3953514126585745, -49); (-3505323902763833, -50); (-944909947082685, -48);
   (-1210807147973105, -47); (-5938678619665167, -49); (-4125785148634653, -50); (-582690415719037, -46);
   (-2678571435025663, -48); (-6849191704569419, -50); (-3745049765982491, -49); (-1266269527994119, -48);
   (-6872178038151037, -49); (-4685287812497167, -50); (-88120489840699, -44); (-3937195594053149, -49);
   (-1686639846583109, -47); (-7432915716193029, -51); (-2932110364924651, -49); (-4897945901079161, -50);
   (-6872178038151037, -49); (-1815596302790343, -47); (-287258907202725, -45); (-5165309293837679, -50);
   (-8255371864270487, -50); (-3897284794567065, -49); (-5678269347568881, -51); (-2784867179741971, -49);
   (-8485852212083411, -50); (-7421458031582851, -50); (-3605275033681105, -50); (-3967079842124745, -49);
   (-787837169005085, -46); (-2754815956432425, -48); (-7753929088356077, -50)];
  [(-5563794743265375, -50); (-3562311717653357, -49); (-3562311717653357, -49); (-1586052272321511, -48);
   (-4783380397244705, -50); (-5312557439628173, -50); (-2553640807909229, -49); (-735961995229891, -47);
   (-3562311717653357, -49); (-4714886632437823, -51); (-5067448814131907, -51); (-6827682029807909, -51);
   (-3562311717653357, -49); (-573498887551421, -48); (-3562311717653357, -49); (-3562311717653357, -49);
   (-3562311717653357, -49); (-2789742609211007, -50); (-3562311717653357, -49); (-5312557439628173, -50);
   (-1081716817449447, -48); (-3562311717653357, -49); (-3562311717653357, -49); (-7188741579372997, -51);
   (-1586052272321511, -48); (-8005932102448069, -51); (-735961995229891, -47); (-1586052272321511, -48);
   (-283258943350469, -46); (-6179879592660403, -51); (-1586052272321511, -48); (-5312557439628173, -50);
   (-5563794743265375, -50); (-1233430844940305, -48); (-6179879592660403, -51); (-735961995229891, -47);
   (-3562311717653357, -49); (-6243314768165359, -51); (-952369965739857, -48); (-7503457495173667, -51);
   (-2553640807909229, -49)];
  [];
  [];
  [(-5183595128462265, -50); (-3779741987075283, -49); (-4560156333095953, -49); (-3779741987075283, -49);
   (-6024723893767405, -51); (-6210758059165131, -51); (-6527832324492695, -50); (-5409530245789145, -50);
   (-2084974580042809, -48); (-2497754475051163, -49); (-2294084786292201, -49); (-7308246670513365, -50);
   (-5419480363054183, -51); (-1646243082241779, -49); (-4560156333095953, -49); (-3779741987075283, -49);
   (-335536494912817, -46); (-4560156333095953, -49); (-3779741987075283, -49); (-4560156333095953, -49);
   (-1322726212756277, -48); (-4560156333095953, -49); (-6413557005684431, -51); (-4560156333095953, -49);
   (-1661614429814183, -48); (-8010034988151057, -51); (-4560156333095953, -49); (-2931051473436057, -50);
   (-5805169093844619, -50); (-5183595128462265, -50); (-2084974580042809, -48); (-4568241620377033, -50);
   (-1661614429814183, -48); (-1661614429814183, -48); (-951938806640933, -48); (-2625760594389345, -50);
   (-4560156333095953, -49); (-7308246670513365, -50); (-6527832324492695, -50); (-2084974580042809, -48);
   (-6232436423569913, -50); (-5805169093844619, -50); (-2255245252502219, -49); (-6322556500682979, -50);
   (-5253986792563317, -50); (-3684114679156283, -50); (-6322556500682979, -50); (-4783079468309061, -51);
   (-847383703516237, -47); (-6232436423569913, -50); (-1732353152661603, -48); (-2084974580042809, -48);
   (-7102970846703649, -50); (-2084974580042809, -48); (-2084974580042809, -48); (-2084974580042809, -48);
   (-2842352090400255, -50); (-6527832324492695, -50); (-7883385192724319, -50); (-5253986792563317, -50)];
  [];
  [(-8522428321912635, -51); (-982430214931069, -47); (-1987850751739651, -48); (-6877436986319133, -50);
   (-2875141456171189, -49); (-4907210824008889, -50); (-1535785479131789, -47); (-3303945981873591, -49);
   (-5595286570214755, -50); (-1987850751739651, -48); (-1624321328442963, -48); (-8250387546447721, -51);
   (-2423450872838775, -48); (-4333230076466967, -51); (-5375817514633167, -50); (-5237108918687885, -49);
   (-8000362890440597, -50); (-3143814275472543, -49); (-5134471006783027, -49); (-3897543533315441, -49);
   (-4744263833772693, -49); (-7502903435809607, -50); (-2328742357872037, -48); (-1400303093219325, -48);
   (-2762339089896681, -48); (-6433296509830461, -50); (-6178333113746109, -50); (-572789153060727, -46);
   (-146756184374171, -46); (-4906214443059569, -49); (-5746896744656643, -50); (-2762339089896681, -48);
   (-1267267132650919, -48); (-1238677593256105, -48); (-8132974799313761, -50); (-1535785479131789, -47);
   (-1562501370781495, -48); (-1187916842695765, -48); (-8294050382984225, -51); (-4906214443059569, -49);
   (-8858456304041231, -50); (-6178333113746109, -50); (-4192106051475481, -49); (-1535785479131789, -47);
   (-7352560453293091, -50); (-8051548973178463, -50); (-5039822732882053, -50); (-8993051060973309, -51);
   (-1348860384802071, -48); (-3462276321748573, -49); (-1535785479131789, -47); (-5237108918687885, -49);
   (-2065004374044863, -49); (-5649776231062617, -50); (-1193917163461257, -48); (-4192106051475481, -49);
   (-5746896744656643, -50); (-4267277542733739, -49); (-8858456304041231, -50); (-3401253959000987, -51);
   (-6083264018085033, -50); (-2718374746872463, -50); (-1919115417966711, -48); (-1208803146734489, -49);
   (-6223881343465507, -50); (-2681363785253243, -48); (-2423450872838775, -48); (-7695384804813551, -50)];
  [];
  [(-2742853452096425, -54); (-4407529480406785, -51)];
  [(-1441235997294535, -51); (-6748523770383459, -53)];
  [];
  [];
  [(-5328083305390293, -57); (-7467080500214065, -51)];
  [];
  [(-6519228019030153, -54); (-5367882789672113, -52)];
  [(-8568853158152909, -59); (-4747015183386195, -50)];
  [];
  [];
  [(0, 0)];
  [];
  [(0, 0)];
  [];
  [];
  [(-6329016112161105, -53); (-6158421172440223, -53)];
  [(-6243314768165359, -53); (-6243314768165359, -53)];
  [(-5053444376600369, -55); (-572396117379887, -48)];
  [(0, 0)];
  [];
  [(-5497538127951357, -53); (-1764115006796443, -51)];
  [(-6243314768165359, -53); (-6243314768165359, -53)];
  [(-559969089772075, -51); (-6815595850480827, -52)];
  [];
  [(-5816948642480253, -58); (-2202855857268181, -49)];
  [(-10117761456265, -46); (-4527213196761903, -51)];
  [];
  [(-1223264410294563, -55); (-7655497142219173, -51)];
  [(-893964234632067, -55); (-8351449568769321, -51)];
  [(-7747831654876323, -54); (-4733770863788733, -52)];
  [(-7482949971157197, -54); (-2429824214731449, -51)];
  [(-2391276118334809, -51); (-955479788098417, -51)];
  [(-5520623023321683, -53); (-7029089885657437, -53)];
  [(-1977690260659731, -52); (-4658942140094929, -52)];
  [(0, 0)];
  [(-5303359258375303, -53); (-7292913244182023, -53)];
  [];
  [];
  [(-2826004807769339, -61); (-3774551494681985, -49)];
  [];
  [(0, 0)];
  [];
  [(-5578188000979329, -57); (-1841431651215851, -49)];
  [(-5634627392272207, -57); (-7343495745142769, -51)];
  [];
  [(0, 0)];
  [];
  [];
  [];
  [];
  [];
  [];
  [(-3950515461907291, -57); (-8129991777142499, -51)];
  [];
  [];
  [(0, 0)];
  [(-3296968855149469, -59); (-5817256901981933, -50)];
  [];
  [];
  [];
  [(0, 0)];
  [];
  [(-2427335861799809, -53); (-6498468672884073, -52)];
  [];
  [(-5496945262212871, -50); (-8181234320122105, -50); (-1139162509254049, -47); (-6685770328429029, -50);
   (-321938052991821, -46); (-2543909118413729, -49); (-5646887527979097, -49); (-6799636118772721, -49);
   (-803184381538717, -47); (-3717840170512291, -49); (-7580050464793391, -49); (-6592715853372755, -50);
   (-6941259754383737, -50); (-8197276225008665, -51); (-4726511080256419, -49); (-6851664454668057, -52);
   (-4513031750860079, -50); (-1169751300426107, -47); (-1899812850125015, -48); (-2593872970640581, -49);
   (-4626238507770143, -49); (-6690631209835085, -50); (-2628340177484381, -48); (-7643792186250281, -50);
   (-7074347228166545, -50); (-5527085056608085, -50); (-6136112343482395, -49); (-1614545719377783, -48);
   (-1429078530154219, -48); (-4244990939582943, -49); (-3218231403701043, -50); (-2546232175229047, -48);
   (-4879539913844595, -50); (-5127441433738267, -49); (-7769856603735817, -50); (-3882771782822513, -50);
   (-386323273877433, -45); (-3400281176810677, -49); (-2560134999885115, -48); (-1819093548206555, -48);
   (-4649092830455511, -50); (-7579986655095547, -51); (-1215487867818895, -47); (-2539530073442517, -48);
   (-5485195175176609, -50); (-6327829765969391, -50); (-286124791782231, -45); (-2716195711605183, -49);
   (-7280479575339625, -50); (-2296926291336489, -49); (-1356179242243237, -47); (-176168843312747, -46);
   (-7623568824258353, -51); (-5316477984476281, -50); (-449365205736441, -45); (-2539530073442517, -48);
   (-1985407554725833, -49); (-3970271432823765, -50); (-596954648245697, -47); (-1585780747831451, -47);
   (-3480793364029799, -48); (-7665293156137507, -50); (-6165419144809231, -50); (-5776320182679081, -50);
   (-7593805682958029, -50); (-5833573296879691, -51); (-8373600680999809, -51); (-798569624230993, -47);
   (-6744255625755183, -50); (-1136504176372473, -49); (-2761488161457751, -49); (-4702257177447759, -49);
   (-3610696283992273, -49); (-5777401998670879, -50); (-7580050464793391, -49)];
  [(-6724000140206655, -50); (-7180513267653571, -50); (-7960927613674241, -50); (-7180513267653571, -50);
   (-5073051371052249, -50); (-7180513267653571, -50); (-6724000140206655, -50); (-7180513267653571, -50);
   (-7960927613674241, -50); (-2419635114795781, -49); (-7960927613674241, -50); (-2353329160359199, -49);
   (-5163171448165315, -50); (-1192753243384017, -48); (-5770027558128747, -50); (-6724000140206655, -50);
   (-7960927613674241, -50); (-4292637025031579, -50); (-5770027558128747, -50); (-6400098921632901, -50);
   (-7180513267653571, -50); (-5998805647395641, -51); (-7960927613674241, -50); (-7960927613674241, -50);
   (-8500290386542963, -51); (-5770027558128747, -50); (-1537215404498925, -48); (-5163171448165315, -50);
   (-7400617714741695, -51); (-7960927613674241, -50); (-6400098921632901, -50); (-3675006671060527, -50);
   (-6724000140206655, -50); (-6400098921632901, -50); (-7180513267653571, -50); (-4645784041326955, -50);
   (-4292637025031579, -50); (-8673591244634319, -51); (-1315284387353047, -48); (-2945778407777723, -50);
   (-6898143107467293, -51); (-2419635114795781, -49); (-6400098921632901, -50); (-1371768166684767, -48);
   (-7960927613674241, -50); (-2353329160359199, -49); (-6724000140206655, -50); (-7180513267653571, -50);
   (-2185158147769115, -51); (-6628374788049965, -51); (-5163171448165315, -50); (-7960927613674241, -50)];
  [(-2576720681568119, -49); (-3882266022181245, -49); (-5406762756754309, -49); (-6826759740441485, -50);
   (-5886861090455343, -50); (-682077021558013, -47); (-1449242482441161, -47); (-6763311974428257, -50);
   (-7003040831288527, -50); (-3845934064712969, -49); (-3779628110276387, -49); (-686994115154629, -47);
   (-2508277791871987, -48); (-5395559665931525, -51); (-3706122655392691, -50); (-8894149795267233, -50);
   (-321401315480025, -46); (-5506005665760273, -50); (-6646229965658941, -50); (-4788299020020515, -49);
   (-8063687213909071, -50); (-8894149795267233, -50); (-5879802133747397, -50); (-5406762756754309, -49);
   (-6876807975778977, -50); (-6022131559965993, -50); (-2155656364490781, -48); (-7087698319591275, -51);
   (-2589253096515425, -48); (-6301669453568023, -50); (-8894149795267233, -50); (-449337095134471, -46);
   (-3787599520758571, -50); (-5406762756754309, -49); (-7825656905935369, -51); (-1449242482441161, -47);
   (-6502858521867731, -50); (-5406762756754309, -49); (-151858317384085, -45); (-7381828822021553, -51);
   (-8706063616907295, -50); (-8894149795267233, -50); (-2582285306317659, -49); (-3915284069877513, -50);
   (-2508277791871987, -48); (-73141318971145, -44); (-2979998589909901, -49); (-5311722568244389, -50);
   (-2155656364490781, -48); (-5021568788572633, -51); (-5222320563587469, -51); (-4363835946427409, -50);
   (-1803034937109575, -48); (-141207306031035, -45); (-7875258026227681, -51); (-4608228852653519, -50);
   (-4701519901991897, -49); (-2582285306317659, -49); (-1310429303486331, -48); (-3882266022181245, -49);
   (-8706063616907295, -50); (-4164679158911991, -50); (-2957773995111079, -49); (-6810559462284583, -50);
   (-7498381941161331, -50); (-8280133173564399, -52); (-4069144393295407, -50); (-2458907997685785, -49);
   (-2776193982048215, -49); (-5406762756754309, -49); (-1449242482441161, -47)];
  [(-5098052876386863, -50); (-1822238232983089, -48); (-4815097984997183, -50); (-1100269172327591, -48);
   (-3254269292955843, -49); (-3254269292955843, -49); (-3026012729232385, -49); (-2954072105836649, -50);
   (-4815097984997183, -50); (-1822238232983089, -48); (-1822238232983089, -48); (-5098052876386863, -50);
   (-3254269292955843, -49); (-5595512331017853, -51); (-3254269292955843, -49); (-1822238232983089, -48);
   (-1822238232983089, -48); (-4034683638976513, -50); (-3254269292955843, -49); (-5728124239891017, -50);
   (-1822238232983089, -48); (-4034683638976513, -50); (-5396107807383191, -51); (-4239959462786229, -50);
   (-4815097984997183, -50); (-3026012729232385, -49); (-5098052876386863, -50); (-3026012729232385, -49);
   (-5396107807383191, -51); (-1567821949095903, -49); (-4815097984997183, -50); (-8635277060732385, -51);
   (-4034683638976513, -50); (-4239959462786229, -50); (-3254269292955843, -49); (-1100269172327591, -48);
   (-1822238232983089, -48); (-6508538585911687, -51); (-3026012729232385, -49); (-1822238232983089, -48);
   (-7747544714390757, -52); (-1100269172327591, -48); (-5098052876386863, -50)];
  [(-6248922343819989, -50); (-592899178036707, -46); (-2548534319917857, -48); (-1717902682665023, -48);
   (-3493892926312483, -49); (-6183157672149475, -50); (-5361657161027449, -49); (-6267690158866719, -49);
   (-1717902682665023, -48); (-3786927763878509, -49); (-3596530838217341, -49); (-1744914144026059, -48);
   (-5856266013818119, -50); (-5259019249122591, -49); (-7278187908956019, -53); (-5453790142380397, -50);
   (-6267690158866719, -49); (-7925558156545971, -50); (-5664510164556367, -50); (-30157352862251, -42);
   (-7212814813036259, -50); (-6267690158866719, -49); (-4581242815006779, -49); (-2485724994008557, -48);
   (-5939933924810193, -50); (-6267690158866719, -49); (-3710042572808531, -49); (-3698190557081251, -49);
   (-592899178036707, -46); (-6649054454498211, -51); (-45917835827003, -42); (-8764653387855045, -51);
   (-6267690158866719, -49); (-8911248326376357, -50); (-2447743910173275, -49); (-6267690158866719, -49);
   (-2062364843779931, -48); (-8505890980033363, -51); (-5667031777943755, -50); (-8880495230970033, -51);
   (-5030762685399133, -49); (-6267690158866719, -49); (-2352576533819921, -49); (-6227955259183673, -50);
   (-8633308587630089, -50); (-2950989324244459, -49); (-7659408053344813, -50); (-5296159756384969, -50);
   (-5259019249122591, -49); (-4981123540757535, -51); (-8071737593765245, -51); (-3109838273049183, -49);
   (-4706861466825379, -49); (-7953924274704617, -51); (-1200975193115823, -48); (-5812337168580441, -50);
   (-6267690158866719, -49); (-1903954846921779, -48); (-1550824882858957, -48); (-4672732838797633, -49);
   (-2824613211066463, -48); (-4202334726610109, -50); (-9005127672113223, -50); (-4581242815006779, -49);
   (-592899178036707, -46); (-5049476100051119, -51); (-6604299307183881, -50); (-2548534319917857, -48);
   (-3844716915125137, -49); (-8705972502566641, -50); (-2824613211066463, -48)];
  [(-5440154195857925, -51); (-283258943350469, -46); (-3295215620139917, -50); (-742828600391541, -48);
   (-283258943350469, -46); (-7503457495173667, -51); (-283258943350469, -46); (-2514801274119247, -50);
   (-3295215620139917, -50); (-7503457495173667, -51); (-742828600391541, -48); (-283258943350469, -46);
   (-7503457495173667, -51); (-283258943350469, -46); (-6243314768165359, -52); (-3295215620139917, -50);
   (-7503457495173667, -51); (-283258943350469, -46)];
  [(-4221999412133425, -50); (-6475289257816575, -50); (-3850119479868067, -49); (-5082284349653893, -50);
   (-5545881158061887, -50); (-1087458045619595, -48); (-2517917197516043, -48); (-1393761497372865, -48);
   (-3400480358921097, -48); (-6723520151371463, -50); (-1442722181197711, -48); (-5600132907392349, -50);
   (-1122394754287523, -48); (-8322518597286273, -50); (-5966430527681565, -52); (-7532555429835629, -51);
   (-72305673544369, -43); (-7030863719969145, -50); (-7324748803988397, -51); (-6325636376398491, -50);
   (-5724873568059015, -50); (-1505136592955381, -47); (-5972573842091497, -50); (-8066632010069985, -50);
   (-8379426183978067, -51); (-6182496981108401, -49); (-2620066012900427, -48); (-5813834848207581, -50);
   (-4842078913800971, -50); (-1321481387435621, -47); (-8547777207852075, -52); (-4537407966978357, -49);
   (-7615121765496399, -51); (-7191167890852529, -49); (-473835941491429, -45); (-999342705463573, -47);
   (-72941435222975, -44); (-2977120208692471, -48); (-7954832152316397, -50); (-5666671156279465, -49);
   (-7364117691282003, -50); (-7191167890852529, -49); (-6721645213541265, -50); (-3356929352911099, -50);
   (-5438414592556007, -49); (-7191167890852529, -49); (-5653015075509513, -50); (-7441875683533889, -50);
   (-7519047474733637, -50); (-770294258701095, -47); (-2051750856309305, -48); (-290968406657, -36);
   (-1466865324839081, -47); (-4246334137193355, -50); (-2899301455667973, -49); (-3118282162128371, -49);
   (-473835941491429, -45); (-1473731930000731, -47); (-1744281393632761, -49); (-2914779197109577, -49);
   (-242732025424745, -46); (-6231480031731837, -49); (-473835941491429, -45); (-8389159342070767, -50);
   (-7503934497392133, -50); (-4056468611826401, -49); (-2061857696237753, -48); (-7025125593717209, -50);
   (-81088826019383, -43); (-8901979197383855, -50); (-2387926974151007, -48); (-5708987490103767, -51);
   (-6191609867018703, -50); (-1321481387435621, -47); (-4836882957847071, -49); (-1344775473793497, -47)];
  [(-3656315894684721, -50); (-2916288359423755, -49); (-8143782111873171, -50); (-216087082721029, -45);
   (-6591548958568577, -50); (-7621131119706121, -51); (-4174177782581507, -49); (-6614803159897897, -49);
   (-971783845388781, -47); (-8100460360680979, -49); (-2981925271296397, -49); (-2147342612613405, -48);
   (-3086530321375577, -49); (-5006534676070415, -50); (-313445933379161, -45); (-4006326569704513, -50);
   (-5517135102879821, -50); (-1305666768333837, -47); (-4088829862101033, -49); (-7079583733728505, -50);
   (-5236398240735471, -49); (-8518583511841121, -50); (-2452366036054897, -48); (-1689860731300309, -48);
   (-3924733818642875, -49); (-5410871485710109, -50); (-6505503040611893, -49); (-1959173071198361, -48);
   (-3266357139790319, -49); (-7583317534084591, -50); (-3496371181286987, -51); (-8767067628625747, -50);
   (-6335334037870871, -49); (-2960240801216097, -49); (-2637991455122165, -48); (-2431919923531555, -48);
   (-3665239901935549, -49); (-3208358432331391, -50); (-1516923572487433, -47); (-7559546772749625, -50);
   (-4324832520687311, -49); (-8100460360680979, -49); (-6425251856389365, -50); (-1504196560736595, -49);
   (-1077473019826041, -47); (-2813302706872903, -48); (-736375565569765, -47); (-1949965124720291, -48);
   (-4832459900325013, -49); (-7492581639034145, -50); (-4747621990955843, -49); (-2246134314376033, -49);
   (-875626291613529, -46); (-2394406839251937, -49); (-3099649694014349, -49); (-3713525512923933, -49);
   (-5183375552404729, -49); (-5713907879087461, -51); (-1431716775524755, -48); (-2707960970302641, -49);
   (-3402110094915687, -48); (-6386546596174439, -49); (-7746160844903847, -50); (-6782010963793779, -50);
   (-1486875013882311, -48); (-3265727559161693, -49); (-843334323501293, -47); (-3647193743976127, -49);
   (-4606468731825345, -49); (-1972346896419357, -48); (-2560370554802793, -51); (-2768278270732623, -49);
   (-376487865238169, -45); (-2339525971438121, -48); (-582189896688817, -46); (-7194427362841709, -49)];
  [];
  [(-3473149218125363, -50); (-3363709255540603, -49); (-7851662027882999, -50); (-4631073868703911, -49);
   (-7071247681862329, -50); (-5243211206967747, -50); (-2006305065985059, -48); (-1653683638603853, -48);
   (-8481733391387153, -50); (-7701319045366483, -50); (-6920904699345813, -50); (-6726895559026345, -51);
   (-2355038345796475, -49); (-404024473243681, -46); (-6920904699345813, -50); (-2006305065985059, -48);
   (-2510640520857123, -48); (-2510640520857123, -48); (-6290833335841659, -50); (-8481733391387153, -50);
   (-1667416848927153, -48); (-1733292092745317, -49); (-1667416848927153, -48); (-7342772019166439, -50);
   (-7554808919177873, -52); (-8787214365110387, -51); (-2510640520857123, -48); (-4402817304980453, -49);
   (-2917160104197371, -49); (-7341103167854495, -51); (-3725040870864641, -49); (-2510640520857123, -48);
   (-1582944915756433, -48); (-1322954687812245, -48); (-8481733391387153, -50); (-4770950970984393, -50);
   (-4631073868703911, -49); (-1627661929539679, -49); (-7486954124646827, -51); (-8685173614722999, -51);
   (-4528084708933665, -50); (-2510640520857123, -48); (-7309935890864035, -51); (-277453626653539, -46);
   (-1222973854724901, -48); (-2006305065985059, -48); (-3390652053725597, -50); (-2917160104197371, -49);
   (-4631073868703911, -49); (-5360076007304473, -50); (-1653683638603853, -48); (-6418430092071411, -50);
   (-8230496087749951, -50); (-226828600043611, -47); (-8601245894862803, -51); (-8601245894862803, -51);
   (-6007878444451979, -50); (-2510640520857123, -48)];
  [(-5714995554323839, -50); (-8084040002601049, -50); (-4948052999139795, -49); (-3939382089395667, -49);
   (-1255033433472741, -48); (-3601214277764093, -50); (-8084040002601049, -50); (-481575371420881, -46);
   (-6847112529133463, -50); (-6104867936986263, -50); (-2556362800517443, -49); (-4920933769608997, -50);
   (-4167638653119125, -49); (-2983210552903583, -50); (-7279347602543203, -51); (-1888715740054395, -48);
   (-6847112529133463, -50); (-3158967743374997, -49); (-3504114877828799, -49); (-7422251051344417, -50);
   (-6774448614196911, -50); (-6451973895717387, -51); (-8659178524812003, -50); (-3504114877828799, -49);
   (-4656212473587969, -50); (-1139461456532365, -47); (-3253412117500019, -50); (-3462395798356713, -49);
   (-8659178524812003, -50); (-3513826139657, -39); (-8149317099869713, -51); (-4948052999139795, -49);
   (-1567993501730627, -48); (-481575371420881, -46); (-6706191358141417, -50); (-6679878334029871, -51);
   (-6239544917509261, -51); (-3504114877828799, -49); (-566796851090303, -47); (-2745779830450919, -49);
   (-1139461456532365, -47); (-5425954702673233, -50); (-4544039244944923, -50); (-2427536447977763, -49);
   (-566796851090303, -47); (-8084040002601049, -50); (-302646920484235, -46); (-1255033433472741, -48);
   (-3727661084363987, -51); (-7303625656580379, -50); (-6847112529133463, -50); (-8659178524812003, -50);
   (-4948052999139795, -49); (-5714995554323839, -50); (-7404479783020123, -51); (-5561225172183883, -50);
   (-411310151620769, -46); (-5538947640823553, -51); (-5425954702673233, -50); (-4948052999139795, -49);
   (-5661371138403741, -50); (-7244836585075787, -51)];
  [];
  [(-2543935939451795, -49); (-783706329417527, -47); (-303672314039239, -45); (-2980918540266401, -49);
   (-169923632710719, -45); (-1953672069342267, -49); (-5287144925087977, -49); (-1736179177815405, -47);
   (-3149919886929581, -49); (-6241512331074973, -50); (-6227702569792377, -50); (-811278267176665, -47);
   (-7414098130715019, -51); (-6257627181111887, -50); (-5141622715733305, -51); (-4510981641041209, -50);
   (-8856962337938571, -50); (-7347794533561287, -50); (-2256396904658625, -49); (-455941239135137, -46);
   (-823978292059703, -47); (-1145123233321467, -47); (-6216528319833743, -50); (-4162819339628933, -49);
   (-575769105385029, -47); (-7563180447995413, -49); (-41970940566015, -42); (-6220240761065611, -50);
   (-5563743675657447, -50); (-7966117269693811, -50); (-4216830618465783, -51); (-1209036388327357, -47);
   (-1736179177815405, -47); (-2581912549212423, -49); (-5876733104135473, -49); (-2899027062592653, -48);
   (-878585473261299, -47); (-1222069411960279, -48); (-2952804330910885, -48); (-2078741640580615, -48);
   (-6657147450156143, -49); (-219858802905359, -45); (-1321359110500585, -48); (-2949134884654175, -50);
   (-5005532861937225, -49); (-5612144582943739, -49); (-2388559836451241, -49); (-7135231306272659, -50);
   (-2602307253060129, -48); (-5307995217088231, -50); (-8550382998052969, -50); (-2261772691605131, -49);
   (-6392558928964409, -49); (-3609888617030053, -50); (-4916215136251185, -50); (-6033013041086635, -50);
   (-2386648918377353, -48); (-7050160482891957, -51); (-1159735149415581, -48); (-1063023245374363, -48);
   (-3082151182620475, -48); (-3784806505222599, -49); (-1471105199346971, -48); (-8218328956695023, -50);
   (-8514944023851541, -50); (-343777981552659, -47); (-5104006451367215, -50); (-8550382998052969, -50);
   (-1150137312820153, -47); (-8689060454475493, -52); (-5797986156975785, -50); (-2527802922523577, -48);
   (-4563852806940801, -49); (-4104311431452487, -49); (-7563180447995413, -49)];
  [(-6165728464763093, -50); (-8131380555829915, -50); (-5053115271779037, -49); (-1827118594512287, -48);
   (-6310686932440991, -50); (-5107197291379619, -50); (-5899835572236289, -49); (-6522859561319165, -50);
   (-7441086286922311, -50); (-4375338837663225, -49); (-127394427763867, -44); (-5574087449950571, -50);
   (-5281371835502495, -49); (-3296312412942197, -50); (-8093401964114811, -51); (-9001914978963651, -50);
   (-6302124914701597, -50); (-5768691156824881, -50); (-5194592717473877, -49); (-7074041862600467, -50);
   (-5281371835502495, -49); (-1021942394139437, -47); (-9001914978963651, -50); (-6027254661393177, -50);
   (-196563835788957, -44); (-3211798543489669, -49); (-6314992482264747, -50); (-8609756504334405, -50);
   (-3670664803825609, -50); (-1639944404945239, -48); (-5899835572236289, -49); (-7812905371405445, -50);
   (-7995457715610767, -51); (-2113820443600917, -48); (-2465661302341447, -49); (-6306397784751551, -50);
   (-4940147713115597, -49); (-4906357060595695, -50); (-7574647281164701, -51); (-7812905371405445, -50);
   (-3697562403547413, -49); (-1170779677700509, -48); (-5530802061695907, -51); (-4695085425177537, -49);
   (-2157884908199437, -49); (-6811014923418157, -50); (-5107197291379619, -50); (-8514553349030753, -50);
   (-1214197242244951, -49); (-5529327646967385, -51); (-8010934063910431, -51); (-2754814199612977, -48);
   (-3379319021074257, -49); (-8260543829653417, -51); (-7915375664417125, -51); (-4811687886761309, -50);
   (-1211526155983907, -47); (-5931239135896621, -50); (-4981657744669097, -50); (-8609756504334405, -50);
   (-549302964324995, -46); (-286635347812829, -46); (-7057237074411947, -50); (-3274552751422775, -49);
   (-7749457605392217, -50); (-2011192189146205, -50); (-1828982889973919, -49); (-5053115271779037, -49);
   (-3860475063604823, -50); (-6372516578802649, -50); (-2496901287198509, -48)];
  [(-2417824765870519, -49); (-6652702995550341, -51); (-496594830017413, -46); (-2224190862636019, -49);
   (-2979946524271415, -49); (-4456815471874085, -50); (-6384688588237269, -50); (-4884082801599379, -50);
   (-2948663479152185, -49); (-1373176951040127, -48); (-2573880557384841, -49); (-2295611188436549, -48);
   (-240520779822165, -48); (-8182726832169279, -51); (-7263069035504811, -50); (-6913865630620737, -50);
   (-2356146729069919, -49); (-7263069035504811, -50); (-2640186511821423, -49); (-2295611188436549, -48);
   (-5867301181398909, -50); (-291274967802299, -46); (-622678693735429, -46); (-5867301181398909, -50);
   (-2658059440058803, -49); (-2295611188436549, -48); (-4591545725505435, -50); (-496594830017413, -46);
   (-3680641808481967, -50); (-6991544698200701, -50); (-5867301181398909, -50); (-622678693735429, -46);
   (-6841201715684185, -50); (-2037698276022081, -48); (-5581058988675877, -50); (-1180741393768811, -48);
   (-8402030407725525, -50); (-622678693735429, -46); (-1533362821150017, -48); (-1533362821150017, -48);
   (-1872251038207923, -48); (-8469469719751697, -51); (-496594830017413, -46); (-5132231214665835, -50);
   (-7181697200531241, -51); (-3991868597825121, -50); (-2676518469289699, -49); (-2315186853965661, -49);
   (-2138613345817973, -49); (-30717805563431, -43); (-7621616061704855, -50); (-7621616061704855, -50);
   (-1373176951040127, -48); (-2295611188436549, -48); (-2037698276022081, -48); (-4934693565005951, -50);
   (-1872251038207923, -48); (-1872251038207923, -48); (-2295611188436549, -48); (-1194474604092111, -48);
   (-671495008940763, -47); (-622678693735429, -46); (-7771959044221371, -50)];
  [];
  [];
  [(-5823687971394137, -50); (-3869063363600305, -49); (-1127251158801671, -47); (-3317658691720993, -49);
   (-6274716918943685, -50); (-5188601455246571, -50); (-6423708542790083, -49); (-1508375342444937, -47);
   (-5526770698096399, -50); (-7720207517554339, -50); (-6007185555140711, -50); (-3703362241084529, -49);
   (-1332245164186785, -48); (-666032314377167, -46); (-8761954534210179, -52); (-7450454416087831, -51);
   (-8945345355476817, -50); (-327119472567879, -46); (-8002231670065395, -51); (-7806383983256103, -50);
   (-5508340377372529, -50); (-4723360493822543, -49); (-3674935427904593, -49); (-4683606337648721, -49);
   (-5911702621017991, -50); (-5643294196769413, -49); (-358750889216515, -46); (-2965443874081281, -49);
   (-533546880871205, -46); (-3236939656482821, -50); (-5464020683669391, -49); (-5196132586382425, -50);
   (-6195451979066625, -49); (-4299832948419961, -49); (-6971496619023265, -51); (-8999398930886327, -50);
   (-6548332064475087, -50); (-1508375342444937, -47); (-6100221214133833, -50); (-6423708542790083, -49);
   (-4231149327123625, -50); (-954025159485071, -48); (-4455349773925263, -49); (-666032314377167, -46);
   (-8232811314672311, -51); (-2651532276781407, -49); (-7629176149491611, -50); (-5744521704118349, -51);
   (-7337148687601419, -50); (-4548920645869235, -50); (-5576988242332831, -49); (-4894231863293277, -51);
   (-7380284569811835, -51); (-4546089082209315, -50); (-3406957857900209, -48); (-8500621863575009, -50);
   (-995044824857489, -48); (-3965942006055059, -50); (-5155321202556437, -50); (-4862879850748743, -49);
   (-6667422611035389, -50); (-604155413008545, -47); (-7514931693744623, -50); (-4979770421479087, -49);
   (-275297006547847, -46); (-8228251303076729, -50); (-6316514588252891, -50); (-8999398930886327, -50);
   (-5168969211179281, -51); (-2661310809673143, -49); (-2902622403028145, -48); (-3002946080252343, -49);
   (-59104913609469, -43); (-5517675544950813, -49)];
  [];
  [(-623477273262727, -47); (-3227252862830059, -49); (-2288573947480543, -48); (-5256371025489909, -50);
   (-2539037322504917, -49); (-6870403567238775, -51); (-8514802614893547, -50); (-6020288374441209, -50);
   (-1543026303757543, -47); (-2704842752961221, -49); (-893505833760161, -47); (-5742348635694941, -50);
   (-564786091223813, -47); (-4822210182899145, -49); (-3741751093596187, -51); (-5478389163849973, -50);
   (-4647608480457109, -49); (-7962410318969357, -50); (-203241663578359, -45); (-8219406713970765, -50);
   (-3287569931492627, -49); (-591020886714897, -46); (-6297409574505955, -50); (-3734119082835859, -49);
   (-294019870792091, -46); (-1396804494509987, -48); (-2884116266061243, -49); (-3481697867188339, -49);
   (-4526324830873533, -51); (-2695845434504751, -48); (-1297339721263, -38); (-1543026303757543, -47);
   (-5553641478296379, -49); (-7240957082964169, -50); (-4974801857237421, -50); (-5076655187257425, -49);
   (-8009329603964637, -50); (-29661980851097, -42); (-8156868889196067, -51); (-5268331219524731, -51);
   (-3788515155486271, -49); (-5781898042019837, -49); (-1316177765733649, -48); (-3788515155486271, -49);
   (-4773227132275709, -49); (-7072599317616245, -50); (-6395851844043639, -50); (-4561153932440059, -50);
   (-1543026303757543, -47); (-2231780662970481, -49); (-1365827480460635, -48); (-3664530612081913, -49);
   (-5001483695999167, -49); (-6512245959734241, -51); (-2762438936900171, -49); (-4892172825102663, -50);
   (-7917368316454585, -50); (-5808209509348411, -50); (-8309526791083831, -50); (-8552972368767017, -50);
   (-5798285758781379, -51); (-8219406713970765, -50); (-4544970568552251, -49); (-4875865044180567, -49);
   (-2343995397536047, -50); (-6251238644411501, -50); (-5781898042019837, -49); (-8864006019777621, -50);
   (-3664530612081913, -49)];
  [];
  [];
  [(-5270863911165835, -50); (-1758877100954231, -48); (-146884394617065, -44); (-2878491142851943, -49);
   (-2958081801662469, -49); (-5351837245061887, -50); (-2984611251592181, -48); (-1752082638156053, -47);
   (-2421380548082059, -49); (-3618293558173835, -48); (-7942271735368065, -50); (-2916553898883553, -49);
   (-3586922134819475, -49); (-7626794289358005, -49); (-4857184700613289, -50); (-7559066186333147, -50);
   (-7620839868697707, -52); (-2272097996705521, -49); (-1185564751455115, -47); (-3565389365453769, -49);
   (-4309858036066979, -50); (-6128843901111827, -50); (-5956306889529903, -50); (-3032982798658333, -48);
   (-6811235438342897, -50); (-6218028668804699, -50); (-7626794289358005, -49); (-84089880317387, -44);
   (-1535284272143731, -47); (-6722507702606755, -50); (-1203905477478257, -48); (-2154270244181079, -48);
   (-5188677453773371, -51); (-5350758766450569, -49); (-5320702837217471, -50); (-1535284272143731, -47);
   (-4369060678063705, -49); (-8205942852200593, -51); (-3138449628613489, -48); (-8214570579070497, -50);
   (-7626794289358005, -49); (-893223869008919, -47); (-7626794289358005, -49); (-5107789839065931, -50);
   (-4158517896664573, -50); (-86943631739269, -43); (-5861667966547897, -49); (-2423937808344877, -49);
   (-7495452412253381, -50); (-2430607725128957, -48); (-2849303872527877, -49); (-1883771112748247, -48);
   (-1166175029134829, -49); (-3032982798658333, -48); (-5659323196280561, -51); (-4263028472955699, -50);
   (-6377192755505219, -50); (-7626794289358005, -49); (-6031836969288919, -49); (-3604929212729961, -50);
   (-575880957603107, -47); (-2666358945109685, -49); (-5496484911206309, -49); (-6675647245438941, -50);
   (-6866199468431147, -50); (-1093566295778819, -47); (-4423406699595753, -49); (-7682963071715853, -51);
   (-6170786226195659, -50); (-3559619696100461, -49); (-5712090381774607, -49); (-4802501063125589, -51);
   (-5889166316543295, -50); (-5693631352543711, -49); (-8971371287431113, -50); (-3715994478166399, -49)];
  [(-5932530978434235, -50); (-7493359670475575, -50); (-2840646837398517, -49); (-5302459614930081, -50);
   (-7493359670475575, -50); (-5932530978434235, -50); (-1564108049251997, -48); (-1511604187434609, -49);
   (-4522045268909411, -50); (-1564108049251997, -48); (-2509752361770201, -49); (-7493359670475575, -50);
   (-2509752361770201, -49); (-7493359670475575, -50); (-6712945324454905, -50); (-6712945324454905, -50);
   (-6712945324454905, -50); (-1564108049251997, -48); (-7182575880744451, -51); (-1225219832194091, -48);
   (-5302459614930081, -50); (-6712945324454905, -50); (-1564108049251997, -48); (-1059772594379933, -48);
   (-7493359670475575, -50); (-1059772594379933, -48); (-6570235590883649, -51); (-4695603504966649, -50);
   (-5476017850987319, -50); (-7830378317891957, -51); (-2840646837398517, -49); (-8845486107629763, -52);
   (-8928888484253551, -52); (-7182575880744451, -51); (-7830378317891957, -51); (-7483261845777483, -51);
   (-7046061368633465, -51); (-1564108049251997, -48); (-1225219832194091, -48); (-3782577250072815, -50);
   (-7493359670475575, -50); (-1564108049251997, -48); (-5932530978434235, -50); (-5804921284469629, -51);
   (-8888732402658895, -51); (-2151722515168701, -49)];
  [];
  [(-5276350224023551, -50); (-7178876489892289, -50); (-1207663600283883, -47); (-6363329039156205, -50);
   (-5060027781310215, -50); (-260263224089375, -46); (-2653440743903329, -48); (-98040508163227, -43);
   (-5365604818667325, -50); (-7932164308620171, -49); (-6463911296376211, -50); (-7932164308620171, -49);
   (-6720689161531911, -50); (-6657897018748503, -50); (-1191532136818193, -48); (-4760059763977149, -49);
   (-2408909839595201, -50); (-4321609272327211, -50); (-1115335653689417, -47); (-3489319128981201, -49);
   (-5054986772017249, -50); (-2081382310071811, -48); (-3267267487281613, -49); (-4746159058869549, -49);
   (-3478897691915319, -49); (-8601744569857113, -50); (-4840527312490001, -50); (-1474849559472231, -47);
   (-5796454308761505, -50); (-5406714803825209, -50); (-6901408069051533, -50); (-5289556825284129, -51);
   (-1284582788794537, -47); (-1885489283902459, -47); (-5437224858138525, -50); (-6337206988551085, -49);
   (-619037325512089, -46); (-7175363538815075, -50); (-8696282083179919, -51); (-5707811841288505, -49);
   (-3725840493204873, -49); (-337830417084641, -45); (-3324692672573751, -49); (-1885489283902459, -47);
   (-8336590903226201, -51); (-6114857325491543, -51); (-8956296677944539, -50); (-4865923758942503, -49);
   (-7438383522517757, -51); (-6087324504445365, -50); (-1249871080382281, -47); (-2743891980270873, -49);
   (-3443095168672857, -49); (-4575641052305883, -50); (-2795460635279081, -48); (-5764611118193069, -51);
   (-1906760683397163, -49); (-5238047513523009, -50); (-3656850285943189, -48); (-1172992374394085, -47);
   (-7077666974868033, -51); (-139015000119239, -45); (-8344510000071365, -51); (-3096031051739405, -48);
   (-6856735865745847, -50); (-4957725817364509, -50); (-1937876160844495, -48); (-8456750290543949, -50);
   (-6554520727836915, -51); (-6011757127910451, -50); (-938940489058173, -47); (-8444309281010847, -50);
   (-8877996540255961, -52); (-5456327572165649, -50); (-310778595864023, -45); (-7514906011454475, -50);
   (-758037974359947, -47); (-1885489283902459, -47)];
  [(-1322333301084123, -48); (-7098082850321745, -50); (-1258993427830323, -47); (-6353250031810085, -50);
   (-5293171939411559, -50); (-2126571585840691, -49); (-2561376414674955, -48); (-6359680302817497, -49);
   (-5391417732600459, -50); (-6574011938716507, -50); (-6985459544928993, -50); (-6886245696332309, -50);
   (-4866093516803063, -50); (-594223946527453, -46); (-2380275752638953, -50); (-1001976636310039, -48);
   (-8771327395704159, -50); (-6644971235754635, -50); (-2504396883897183, -49); (-514043386946511, -46);
   (-6349968479190213, -50); (-4968675774331253, -49); (-1747230519851585, -48); (-8771327395704159, -50);
   (-4998486161443155, -50); (-7368351212561625, -49); (-1326487338629209, -47); (-6153795095478043, -50);
   (-5501528202644469, -50); (-7600079942961079, -50); (-2664294634128971, -50); (-5807522520520285, -49);
   (-351517125264255, -46); (-6587936866540955, -49); (-157097130453113, -44); (-7332255949978503, -50);
   (-4221332288669921, -50); (-2561376414674955, -48); (-6496759429166591, -50); (-6462318214722355, -49);
   (-6839735645432039, -50); (-3489072019775645, -48); (-8595988183297311, -51); (-1597786695367627, -49);
   (-8643730639474407, -50); (-4816724539013537, -49); (-949989951165535, -48); (-635464599022951, -47);
   (-5072901698441245, -49); (-1301829833472365, -48); (-3295465483837467, -49); (-4599315739340999, -50);
   (-5603224889751517, -49); (-1493291860701151, -49); (-6716946419573373, -51); (-5056174967404469, -50);
   (-3489072019775645, -48); (-4645766538310957, -49); (-3438595123063583, -50); (-523498939699197, -47);
   (-525652633113837, -47); (-5654437448055085, -49); (-7368351212561625, -49); (-6822653391458499, -50);
   (-4860319209807211, -50); (-8197315336725583, -50); (-8072620385985735, -50); (-3672258540434005, -50);
   (-7105750756737245, -50); (-7240448408820213, -50); (-8404621638825639, -50); (-8989721170322515, -52);
   (-619391538052557, -47); (-5133275564758447, -49); (-6403656833999921, -50); (-1704419532421685, -48);
   (-6462318214722355, -49); (-6587936866540955, -49)];
  [(-5882269927689845, -50); (-3911447699343935, -49); (-1388923651046731, -47); (-6983382360943617, -50);
   (-6050627693037769, -50); (-2386277176595377, -49); (-2891975583955191, -48); (-6402414904644175, -49);
   (-6099153069838079, -50); (-3486913641584867, -49); (-7080185942823561, -50); (-3829990880939709, -49);
   (-5001786397930121, -50); (-2539354156573985, -48); (-981352512093529, -49); (-7364257015513101, -51);
   (-8785893278848275, -50); (-5582994476116885, -50); (-2426513310498487, -49); (-2337627323858293, -48);
   (-6392363463946813, -50); (-2674341978171757, -48); (-7763796706964287, -50); (-4715967560784235, -49);
   (-5667213154958411, -50); (-3396311038827255, -48); (-5622000558623505, -49); (-1531055814689295, -48);
   (-2700976266437025, -49); (-3932045727071655, -49); (-192619407765147, -46); (-375762983227115, -45);
   (-3169391527568381, -49); (-735823634976905, -46); (-8005478932827605, -50); (-3911591489405317, -50);
   (-2634062671540723, -48); (-6606377545844343, -50); (-3396311038827255, -48); (-5834001275114763, -50);
   (-6174158340920717, -49); (-4653390379173757, -50); (-3689995985571379, -50); (-4877918170071111, -49);
   (-2412131654394845, -48); (-4652179516995557, -50); (-2323674524388671, -49); (-4759856006923263, -49);
   (-2256543505999899, -49); (-3628617672089939, -49); (-4849656381427681, -50); (-2468615433726565, -48);
   (-2818775247325357, -50); (-1767963100889561, -49); (-7557030622098659, -51); (-6402414904644175, -49);
   (-4613329648879377, -49); (-851769808767117, -48); (-2167223537144915, -49); (-286268591766767, -46);
   (-2615896692806585, -48); (-375762983227115, -45); (-6067516508310445, -50); (-4558929657069999, -50);
   (-7631184798091123, -50); (-6005448748052677, -50); (-8020027210402989, -51); (-7447920468243837, -50);
   (-3728813281016943, -49); (-575215252763627, -46); (-2288223533949247, -50); (-8844069751586967, -51);
   (-6174158340920717, -49); (-5976306182340189, -50); (-7405249680764243, -50); (-6402414904644175, -49);
   (-3396311038827255, -48)];
  [];
  [];
  [];
  [(-4034683638976513, -51); (-8853684227211519, -51); (-8853684227211519, -51); (-8853684227211519, -51);
   (-5207256459626429, -50); (-5207256459626429, -50); (-7292855535170179, -51); (-8968259839634731, -54);
   (-5207256459626429, -50); (-5207256459626429, -50); (-5207256459626429, -50); (-3970328986158843, -50);
   (-5207256459626429, -50); (-5207256459626429, -50); (-3970328986158843, -50)];
  [(0, 0)];
  [(-7210156345742689, -50); (-4511111170710615, -49); (-4282854606987157, -49); (-6011398626148573, -50);
   (-3089252348042409, -49); (-2450659171860475, -48); (-7990570691763359, -50); (-7990570691763359, -50);
   (-4511111170710615, -49); (-3805868315948203, -49); (-3848577330224003, -50); (-2450659171860475, -48);
   (-7801908422987293, -51); (-2797197406204075, -49); (-7990570691763359, -50); (-6429741999722019, -50);
   (-2450659171860475, -48); (-4883075757395577, -50); (-4282854606987157, -49); (-3243746557547307, -49);
   (-1946323716988411, -48); (-7328781740506727, -50); (-3771656699794203, -50); (-4511111170710615, -49);
   (-515112999712535, -46); (-2542752401845795, -49); (-2450659171860475, -48); (-1522963566759785, -48);
   (-515112999712535, -46); (-853915285734467, -47); (-4617676004043479, -50); (-3730696824689945, -49);
   (-1522963566759785, -48); (-8263064443227365, -51); (-5211737659201139, -50); (-2450659171860475, -48);
   (-2758357872414093, -49); (-496058383861175, -47); (-1758089356764225, -49); (-5051893355262387, -50);
   (-5917022130164277, -52); (-5621526243486149, -50); (-2220452748942367, -49); (-4510366281480635, -50);
   (-515112999712535, -46); (-3805868315948203, -49); (-7210156345742689, -50); (-4282854606987157, -49);
   (-4511111170710615, -49); (-5300423683839971, -51); (-5767953048465387, -50); (-1244808901547159, -49);
   (-6429741999722019, -50); (-2552572704493283, -50); (-2400328025812593, -49); (-588944418722543, -47);
   (-538136307208865, -47)];
  [(-1142113294648381, -48); (-7072962296256107, -50); (-4264745935040583, -49); (-1264444860444041, -48);
   (-3780319258761585, -49); (-5084875734601029, -50); (-7287491388976097, -49); (-59982020015519, -42);
   (-2495389980702645, -49); (-3724720999131487, -48); (-837984543553133, -47); (-5718272517301583, -50);
   (-8067905734996767, -49); (-3020871054266855, -49); (-7603885017336667, -51); (-7005297285139905, -50);
   (-1554468035438801, -50); (-6992971245467195, -51); (-4101976727451225, -49); (-832554403450739, -47);
   (-376061208730903, -47); (-2956382114743895, -49); (-5631877945524781, -50); (-2755129074469289, -48);
   (-7950166868840431, -50); (-7255604057977283, -50); (-6953300097765335, -51); (-769150228426671, -46);
   (-303443017330381, -45); (-4264918149325161, -50); (-7980000134519399, -51); (-2598468083499111, -48);
   (-5493962486598085, -51); (-4843977062241609, -49); (-59982020015519, -42); (-2283993419355521, -49);
   (-8067905734996767, -49); (-52101778533143, -42); (-7569543358064411, -50); (-2325422665745833, -49);
   (-6278820479231969, -49); (-8359496908128279, -50); (-6381458391136827, -49); (-7020977646276563, -50);
   (-385206006427, -36); (-642678753788627, -47); (-656366799392753, -46); (-3127919869659113, -48);
   (-4597111992213343, -50); (-7304423019010023, -50); (-584285827852775, -46); (-5579346598011245, -50);
   (-8697384640811159, -50); (-7241199477443849, -51); (-1458207521798397, -47); (-3778459447808527, -50);
   (-5154436585243977, -50); (-5813729648358459, -50); (-6302779412186659, -49); (-5644932491255185, -49);
   (-4796169072226111, -50); (-4992534713883967, -50); (-1507952478332161, -49); (-3127919869659113, -48);
   (-895234092144687, -46); (-6772214546824307, -50); (-1683117001195735, -48); (-8626624191935489, -50);
   (-4124507745166125, -49); (-3071720684112027, -49); (-5932172315896103, -50); (-3725431044380465, -49);
   (-7401666849362773, -50); (-7137949079254291, -51); (-6409497007489355, -50); (-1337451685369739, -47);
   (-4754323744658905, -49); (-1109822015726707, -47); (-8067905734996767, -49); (-8067905734996767, -49)];
  [(-4537881634185105, -50); (-7343589284414805, -50); (-2214382552793457, -48); (-2964239874736033, -49);
   (-1372049155649035, -48); (-282296195985933, -46); (-5203284633835029, -49); (-2834331649051811, -48);
   (-5113233173122991, -50); (-5973763930187921, -50); (-3350069498834217, -49); (-3211604046613181, -49);
   (-4639315232020843, -50); (-8828284413452205, -50); (-7319306921706189, -52); (-4467776583774635, -50);
   (-8943706676875591, -50); (-6964314041193131, -50); (-4886678482651571, -50); (-7986084497090429, -50);
   (-3185942814346773, -49); (-643437676850873, -46); (-3583363189698087, -49); (-8313635313371437, -50);
   (-4595162013439275, -50); (-1748092472399957, -47); (-5239616591303305, -49); (-6361508597569511, -50);
   (-5298533953347381, -50); (-8212323296120255, -50); (-5538554372030111, -51); (-611031119010369, -46);
   (-5249873350718437, -50); (-3186953076433017, -48); (-2424704709146485, -48); (-3555676823765071, -49);
   (-3912897148946165, -50); (-5486958031963499, -49); (-468026866359513, -46); (-5983698979855699, -49);
   (-208919056754477, -45); (-2273431609766471, -49); (-7117627591544567, -51); (-2329996194179747, -48);
   (-2204198884800905, -48); (-4079921060823529, -50); (-1538359677342755, -48); (-5059206952785533, -49);
   (-2747377351274541, -49); (-6621007343244173, -50); (-4267535479903869, -50); (-2834331649051811, -48);
   (-5882909723483797, -51); (-8173155310238541, -51); (-2833633524580537, -49); (-307232210795597, -45);
   (-918869228747515, -48); (-8422535958361177, -51); (-3898827317624449, -50); (-384103099321411, -45);
   (-7382577062610163, -49); (-219510342457319, -45); (-702605710698793, -47); (-8128646523228631, -50);
   (-8397073472315609, -50); (-7287455943623333, -51); (-2937003695191995, -49); (-219510342457319, -45);
   (-928571618491875, -47); (-5034783740370991, -51); (-2787167967701445, -49); (-5191677007064669, -49);
   (-118796316536299, -44); (-4892792297494455, -50); (-1748092472399957, -47)];
  [];
  [(0, 0)];
  [(-5094621729840173, -50); (-12490179206751, -41); (-2337460119059725, -48); (-1613705970412721, -48);
   (-5534487958761523, -50); (-7065557122331983, -51); (-1044946773335529, -47); (-6293652490503111, -49);
   (-5751742012501933, -50); (-7818149225076175, -49); (-2956689582553175, -49); (-464246378254115, -45);
   (-7795378812891247, -50); (-3146626898987107, -49); (-3368056878307911, -50); (-4404541624288645, -49);
   (-5106616727519847, -51); (-2601342827892569, -49); (-1178024843501771, -47); (-7945417785710535, -50);
   (-7011245992460693, -50); (-5040287354261573, -49); (-4041146659238359, -49); (-4873296872876061, -49);
   (-7060571276697699, -50); (-6903598834947969, -50); (-4130285291915503, -50); (-464246378254115, -45);
   (-1286747476106699, -47); (-2682888530390257, -49); (-5090954614533527, -50); (-1891081983565189, -48);
   (-2388129365204125, -50); (-2900403702793959, -48); (-3404739157666023, -48); (-728163410662011, -47);
   (-5552077678272423, -49); (-1367044526481477, -47); (-859851359449563, -47); (-5104232004231057, -50);
   (-6332492024293093, -49); (-136842143216241, -44); (-6419271142321711, -49); (-432874438177669, -46);
   (-5055859281770913, -50); (-5067428541642029, -51); (-2682770097010525, -48); (-2477043552565333, -48);
   (-376186876197561, -46); (-8014359179056199, -50); (-5182343668854125, -49); (-1801307369756031, -48);
   (-7010715782935075, -50); (-8265090209096219, -51); (-1680674799325857, -47); (-31531535860181, -43);
   (-2734499456933405, -49); (-7149906674126803, -50); (-464246378254115, -45); (-5065127411129785, -49);
   (-3365494344222281, -50); (-7761546507793813, -51); (-4228661930963403, -50); (-464246378254115, -45);
   (-4119070967490213, -49); (-1458229156768291, -48); (-7676327827531765, -50); (-4496802284686389, -49);
   (-6209780059700017, -51); (-3416311553485893, -49); (-4009121914468463, -49); (-1194813445924023, -47);
   (-3868053613196359, -51); (-1671306358065011, -48); (-5485771723835841, -49); (-2340652686102663, -48);
   (-6262291672665999, -50)];
  [(-1402760557780425, -48); (-1402760557780425, -48); (-5232208171254747, -50); (-1237313319966267, -48);
   (-6642693880779571, -50); (-7423108226800241, -50); (-6642693880779571, -50); (-5081865188738231, -50);
   (-1388184003575491, -49); (-3064523369249975, -50); (-7423108226800241, -50); (-5992532226388963, -51);
   (-1237313319966267, -48); (-6642693880779571, -50); (-7689875430541289, -51); (-7423108226800241, -50);
   (-1402760557780425, -48); (-6642693880779571, -50); (-3093090376666327, -49); (-6642693880779571, -50);
   (-5905913862387767, -51); (-1402760557780425, -48); (-3892855581180025, -50); (-1402760557780425, -48);
   (-1237313319966267, -48); (-2415313942550515, -49); (-566903998022281, -47); (-2084419466922199, -49);
   (-3892855581180025, -50); (-8602901685435123, -51); (-5405766407311985, -50); (-8748229515308227, -51);
   (-7597952470886319, -51); (-2272441562271353, -50); (-5232208171254747, -50); (-8215929308905909, -51);
   (-3942903816517517, -50); (-5232208171254747, -50); (-6642693880779571, -50); (-2415313942550515, -49);
   (-7423108226800241, -50); (-8100427078160721, -51); (-7423108226800241, -50); (-3112441235159355, -50);
   (-8100427078160721, -51); (-7423108226800241, -50); (-5862279534758901, -50); (-3093090376666327, -49)];
  [];
  [];
  [];
  [(-3948033209930835, -50); (-3948033209930835, -50); (-5988121255705855, -51); (-5184960683398421, -50);
   (-8809092674755503, -51); (-3948033209930835, -50); (-5184960683398421, -50); (-6745789375439761, -51);
   (-5184960683398421, -50); (-3167618863910165, -50); (-5184960683398421, -50); (-5184960683398421, -50);
   (-5184960683398421, -50); (-8809092674755503, -51); (-5184960683398421, -51); (-7248263982714163, -51);
   (-3948033209930835, -50); (-5988121255705855, -51); (-8809092674755503, -51); (-8809092674755503, -51);
   (-6745789375439761, -51); (-5184960683398421, -50); (-5574890488420377, -52)];
  [(-6204461065875463, -50); (-8280558819996977, -50); (-4779216310324319, -49); (-7141597447776263, -50);
   (-6729827952653729, -50); (-674085322171873, -47); (-1649022395137047, -48); (-7605445453978051, -50);
   (-6965952278949427, -50); (-4082980846977611, -49); (-4680815505847897, -50); (-5235729437771235, -49);
   (-782680386925541, -48); (-4012652660214671, -50); (-7997603928607297, -50); (-6325208798509867, -50);
   (-6115415728337047, -52); (-6916992395467433, -50); (-3218387618282979, -49); (-6016143783791905, -49);
   (-4047785014927085, -49); (-2308632850518721, -48); (-6210840119239077, -50); (-6016143783791905, -49);
   (-6709722062886631, -50); (-4967533592407877, -50); (-1211380566190225, -47); (-1693890883709915, -49);
   (-2812968305390785, -48); (-3344984463142527, -49); (-6016143783791905, -49); (-2090999244735287, -48);
   (-8365773069970795, -51); (-2812968305390785, -48); (-7500144473976307, -50); (-6016143783791905, -49);
   (-3740108260884469, -49); (-2758410172497605, -49); (-210862203331919, -46); (-2333124375830439, -48);
   (-2460346878009579, -48); (-4789440916444587, -50); (-6033632285474585, -50); (-4530486583008823, -49);
   (-2807079339670801, -49); (-470026969227701, -46); (-5163939027794127, -50); (-5235729437771235, -49);
   (-1495791598725361, -49); (-8076735284191655, -51); (-5708365511964675, -50); (-6016143783791905, -49);
   (-5007472874047777, -49); (-6171977381450745, -51); (-8146549500262043, -51); (-1247775572805317, -48);
   (-6016143783791905, -49); (-6016143783791905, -49); (-561686023828839, -47); (-2858291897974369, -49);
   (-7605445453978051, -50); (-4572205662480909, -49); (-2318644629494985, -49); (-4715872300851207, -50);
   (-7997603928607297, -50); (-1211380566190225, -47); (-1151294067542609, -49); (-5280882719621397, -50);
   (-6016143783791905, -49); (-7367532565103143, -50); (-7460635160269813, -50)];
  [(-2286038957923499, -49); (-3773967647814333, -49); (-8944347073061725, -50); (-5072507862534471, -50);
   (-726788414491099, -47); (-5191744518751293, -50); (-3118649929670485, -48); (-826926134311723, -47);
   (-7112868529124775, -50); (-6627507032351305, -49); (-1640635052902413, -48); (-6410906799259219, -50);
   (-8088952439778679, -51); (-2297370480810029, -48); (-1811146057677393, -50); (-4727397498732209, -50);
   (-4557933740338479, -49); (-7469312472832637, -50); (-2626151711706605, -49); (-8693109769424523, -50);
   (-1753475117519189, -48); (-5922264177588893, -49); (-6953838235370239, -50); (-8259675925479295, -50);
   (-4712461872785685, -50); (-877214275670205, -46); (-3055840603761185, -48); (-1641743951158861, -48);
   (-755537352625639, -47); (-8572527988578591, -50); (-4794975312937965, -51); (-5360142419187997, -49);
   (-2349142578408343, -49); (-2890393365947027, -48); (-8520951036228453, -50); (-4295634703833355, -50);
   (-6399250468627847, -49); (-8081369053505383, -50); (-5390579558883719, -49); (-3829750866842379, -49);
   (-5586854813053045, -50); (-3788017232695623, -50); (-4290679310675655, -49); (-3055840603761185, -48);
   (-5065458727047891, -50); (-7350356950546269, -50); (-4376720133577573, -49); (-2760010784177625, -49);
   (-4602400262811125, -49); (-4127211259622537, -50); (-6627507032351305, -49); (-5170835715700483, -51);
   (-3312459630874567, -50); (-199622764143465, -45); (-6399250468627847, -49); (-7946621856938863, -51);
   (-8537147294434963, -51); (-2229301308542229, -49); (-7117690377637427, -50); (-1566190783174093, -48);
   (-1915854477805509, -48); (-4072861853161527, -49); (-5413562464328923, -50); (-7411396281599203, -50);
   (-546983016707145, -47); (-344165993120095, -46); (-583940142745567, -48); (-2382813537833009, -49);
   (-1313146970637883, -47); (-2351748977502193, -48); (-4403154565019639, -49); (-877214275670205, -46)];
  [(-7097356215401357, -51); (-6627677094462361, -50); (-2466189185492107, -48); (-3836928343211467, -49);
   (-893313611100893, -47); (-1669643505666447, -49); (-2688120202637985, -48); (-5501859057094571, -49);
   (-6711559483006631, -50); (-3581767228494929, -50); (-1998223599729121, -48); (-2497092243742235, -49);
   (-4255819653074553, -50); (-2183784747765921, -48); (-6204408558217873, -51); (-2221282870067715, -49);
   (-2165618769031783, -48); (-3542095110954639, -49); (-6080599835506229, -50); (-659200311671389, -46);
   (-7335427525546479, -50); (-6969034475212629, -50); (-7973647777989721, -50); (-4721444711073901, -49);
   (-3847377091129949, -50); (-1277912971021059, -47); (-1540395445577795, -48); (-6538890232314839, -50);
   (-4721444711073901, -49); (-5641638266799191, -51); (-6900777219157135, -50); (-6282273403115241, -49);
   (-2593411687671247, -48); (-8438392351226165, -51); (-3293549613485817, -50); (-3949895901874907, -49);
   (-1142089909652175, -47); (-1518379670168775, -48); (-4558241416485269, -51); (-4091373347569747, -49);
   (-2522672964823827, -48); (-310879163885055, -46); (-3874724410616649, -49); (-2946033115052453, -48);
   (-6604815397183563, -50); (-4721444711073901, -49); (-7353509420939661, -51); (-2946033115052453, -48);
   (-3587959887114325, -50); (-21417799339365, -42); (-6593556304288737, -50); (-7603022016254061, -50);
   (-7807994227514081, -51); (-1333153412090231, -48); (-3751857004112215, -50); (-6282273403115241, -49);
   (-7718600318747317, -50); (-6228408718580609, -50); (-4080000234426365, -49); (-1488282483522799, -48);
   (-2702151589966733, -49); (-2038477994328637, -49); (-2183784747765921, -48); (-6169240994888141, -50);
   (-8622266303143603, -52); (-6878914398099563, -50); (-6282273403115241, -49); (-8896256217587819, -50);
   (-896788787377793, -47)];
  [(-4742345343167733, -50); (-894731306377757, -47); (-4223577402879643, -49); (-6735983131201431, -50);
   (-2712646383845579, -49); (-5017414107370245, -50); (-5709234603662725, -49); (-5946806873982015, -50);
   (-3176066959345533, -49); (-886953775781243, -47); (-6727221220002685, -50); (-5014392406840843, -51);
   (-7415503156101415, -50); (-2497980054497097, -50); (-4461555164237977, -50); (-4148405911621385, -49);
   (-3518334548117231, -49); (-8796086938637851, -51); (-8332557679717531, -50); (-3242372913782115, -49);
   (-5709234603662725, -49); (-7383785568348937, -50); (-8262166015616479, -50); (-1647208664854451, -49);
   (-567326635578965, -46); (-3148600538698933, -49); (-5028942193477709, -50); (-1646960330556105, -48);
   (-1806064434277367, -49); (-2596704389416895, -48); (-5534801514208605, -50); (-2596704389416895, -48);
   (-1937544654670697, -48); (-3066002255637423, -50); (-7534128550865453, -50); (-1524860444168265, -47);
   (-3956481305366203, -49); (-5510845293278953, -50); (-8549811769467579, -51); (-8369475738179323, -50);
   (-290968978460129, -45); (-628376578772885, -47); (-2025831408744541, -48); (-2659513715326195, -48);
   (-3313537626891413, -49); (-4928820257642055, -49); (-7407059874333755, -51); (-5480978039939267, -49);
   (-3183014854816317, -50); (-314671925270807, -46); (-693371690455403, -47); (-1524860444168265, -47);
   (-2659513715326195, -48); (-1238557056817199, -48); (-4586029402840011, -50); (-3008065363528685, -50);
   (-3372406881987075, -49); (-6886326113717947, -50); (-5371668351771061, -50); (-4223577402879643, -49);
   (-3207261281067665, -50); (-2867106444861481, -50); (-8133351411883625, -50); (-2960461488777235, -49);
   (-5969765702686717, -51); (-6866398161510577, -50); (-5709234603662725, -49); (-1272692716732233, -47);
   (-757694983285117, -47)];
  [(-933769944996121, -48); (-6701996944402479, -50); (-3374348391814513, -49); (-298392118260033, -46);
   (-2839562362343769, -49); (-4961635533063925, -50); (-3179513082634637, -48); (-6704173299723075, -49);
   (-6052080245788737, -50); (-6214948484219777, -49); (-3236819293633527, -49); (-3683848537506701, -48);
   (-6180639268782541, -50); (-1018513927629259, -46); (-5769433145518209, -50); (-6977489902003067, -49);
   (-7738170908687955, -51); (-8497590405624419, -50); (-6441982583167291, -53); (-1209672015103315, -48);
   (-291238967994649, -45); (-3663126579196377, -49); (-4814313769408267, -50); (-1917130457523171, -48);
   (-1540193922872193, -48); (-2697544803543841, -48); (-7797304368324451, -50); (-8187585931070911, -50);
   (-4869752035085511, -50); (-6704173299723075, -49); (-1314228482528845, -47); (-5818991752708457, -50);
   (-2967956264787035, -49); (-4855234308616861, -49); (-42133059842879, -44); (-4246589715354957, -49);
   (-6169856281340737, -51); (-6272247047240655, -49); (-7543459990798395, -50); (-4521200774062767, -50);
   (-3425935625092233, -48); (-8457433574235153, -50); (-764418168787853, -46); (-6855515770346081, -50);
   (-7757904248023737, -49); (-6352270438633019, -50); (-4838816624490687, -50); (-5852661906913691, -49);
   (-5647121103125715, -49); (-3150197117326979, -49); (-4130180857223403, -49); (-4669071333717423, -49);
   (-418135912995679, -46); (-4519493748944133, -49); (-5187634381175463, -50); (-6798216388903045, -49);
   (-3509420974873549, -50); (-6092583687970713, -50); (-6669289406685967, -50); (-3764823842150139, -48);
   (-2758771323163989, -48); (-5846028322602149, -50); (-5920910084729055, -50); (-5037145354282879, -50);
   (-1646820682248183, -47); (-7757904248023737, -49); (-9000341273458873, -50); (-4478988681532683, -49);
   (-2761414300110279, -48); (-157076688654731, -44); (-8968000277091581, -50); (-4104806634192801, -49);
   (-8623729628868091, -50); (-174890148358937, -44); (-239733308223979, -46); (-3660400423973295, -49);
   (-332494882239339, -45); (-5122098691801687, -49); (-7600762649651083, -50)];
  [(-4072104125811357, -50); (-3263126874598423, -49); (-8319770727202713, -50); (-5621654366098351, -50);
   (-2349293059741945, -49); (-8281092877701821, -51); (-5526586119946985, -49); (-711941248286053, -46);
   (-5794375439571965, -50); (-1496130666230487, -48); (-1542386120706793, -48); (-3495885078569015, -48);
   (-179480387541, -35); (-3237972166154547, -48); (-2185419756634525, -50); (-7049015390138157, -50);
   (-4003233365536953, -51); (-7575649524359191, -51); (-3946542253559829, -49); (-6848908813900339, -50);
   (-2102934585460679, -49); (-7138144096308557, -50); (-763698551918507, -47); (-4806643997883921, -49);
   (-3265751354659189, -49); (-4049936310579607, -49); (-3384255061654461, -50); (-3237972166154547, -48);
   (-4751408555442271, -49); (-5509512904154699, -50); (-4444342563164113, -50); (-2010227877785933, -48);
   (-5809336393102605, -51); (-2475723798868015, -48); (-5029691700912955, -50); (-2568189473468325, -48);
   (-7084070392719649, -50); (-4366781236750985, -50); (-6601562984127695, -49); (-8656003940988527, -50);
   (-6601562984127695, -49); (-3697273043736903, -49); (-2772937587368183, -49); (-7434045900261215, -51);
   (-325167806335827, -45); (-4335491437323943, -49); (-1512185332819523, -48); (-4014740478529081, -49);
   (-4998387270604463, -49); (-6278763204114979, -50); (-4887649219621155, -49); (-3967720420246189, -50);
   (-5983099247393901, -49); (-3853583504667449, -50); (-1418440024499303, -48); (-5631411217026229, -50);
   (-6601562984127695, -49); (-622787736489749, -46); (-8886802153655581, -51); (-4414828120163089, -50);
   (-2785587015563439, -50); (-3237972166154547, -48); (-2044550108865577, -48); (-465789863559299, -46);
   (-8507522463288741, -50); (-4504184042802733, -49); (-5981751785984019, -50); (-2483331693798925, -48);
   (-8529470524904089, -50); (-5349211259417117, -49); (-6514323784812947, -51); (-1778167540274747, -48);
   (-5857480595575301, -49); (-5040734292086355, -49); (-2783687871036155, -49); (-7381977330148365, -49)];
  [(-5210712019408997, -50); (-6665926546493349, -50); (-2359994670136929, -48); (-7618569063553205, -50);
   (-401218158065785, -46); (-2337760708124859, -49); (-6118867423028321, -49); (-5212834425189051, -49);
   (-6719064170972233, -50); (-6154860885105891, -50); (-8446496784763315, -50); (-6838154717532535, -50);
   (-1329697353372793, -48); (-2511708697627787, -48); (-1800406326539637, -49); (-5759128122056257, -50);
   (-4851502809865013, -49); (-1097926791525183, -47); (-6105253746701305, -50); (-2801520799099693, -48);
   (-7746538079633213, -50); (-8683268365981605, -50); (-6607576707412499, -50); (-4329782167263523, -49);
   (-6100411158991459, -50); (-7318173916010319, -50); (-6258373302528425, -50); (-4697008600360115, -49);
   (-4990905367479265, -52); (-1205656813044679, -47); (-5890610859304863, -49); (-4647919498089525, -50);
   (-6118867423028321, -49); (-7600111274653975, -50); (-2603167668937497, -49); (-2864330125008993, -48);
   (-2043050676148537, -48); (-2801520799099693, -48); (-8893345475987733, -50); (-85313006735881, -44);
   (-8082348464641603, -51); (-5371487974897, -39); (-8547997896470955, -50); (-646490150037741, -47);
   (-4071088463844343, -49); (-5371487974897, -39); (-6852199389130599, -50); (-983435315943553, -47);
   (-5511823160557469, -50); (-6118867423028321, -49); (-8929612903754245, -51); (-4486491965862385, -50);
   (-6885668092721975, -50); (-2359994670136929, -48); (-735003843952807, -48); (-4732842169163033, -50);
   (-5585824816353747, -50); (-2043050676148537, -48); (-1633550555338265, -48); (-1237061475999329, -47);
   (-4035219649103483, -49); (-2477003258517333, -49); (-8389716691362803, -50); (-8112931129967063, -50);
   (-5110196513284193, -49); (-5320755096613657, -52); (-3115455483864089, -49); (-3178259080097, -38);
   (-4881939949560735, -49); (-4093760653488141, -49)];
  [(-8297425886526137, -51); (-7093020729438611, -50); (-3973732272665995, -49); (-6207625306787249, -50);
   (-6088300812400103, -50); (-8555826771319789, -51); (-2591987328977905, -48); (-2743701356468763, -48);
   (-6173191433261695, -50); (-6582852740710273, -49); (-2894922371238315, -49); (-1771978649665095, -48);
   (-6221699238879015, -50); (-1411682997880229, -49); (-7676721269388959, -50); (-7175172577386215, -52);
   (-7401186422867887, -51); (-481425316204741, -46); (-1688783249188933, -48); (-5291236996153201, -50);
   (-8537272980706037, -50); (-3406741417918291, -49); (-8717000546757213, -50); (-8150556275524027, -50);
   (-1000436378038611, -47); (-7033542005951373, -51); (-3096322783849969, -48); (-8879784538806831, -50);
   (-5411010682609677, -50); (-5583229358833891, -50); (-4597688247630851, -49); (-6034324633014117, -51);
   (-5574181830966145, -49); (-2948014563853783, -49); (-6582852740710273, -49); (-1353057805419817, -47);
   (-2821865910470767, -49); (-4170641841490329, -50); (-8150556275524027, -50); (-5802438394689603, -49);
   (-7546977896861971, -50); (-796294687348817, -47); (-3886372661656183, -50); (-5022024048668933, -49);
   (-4727461530508893, -49); (-6250386138645829, -50); (-7618111016312073, -50); (-2672962633621343, -48);
   (-409445094927961, -46); (-5097195539927191, -49); (-4997431349600503, -50); (-5964389003976479, -49);
   (-6047520421119555, -51); (-5592639920303087, -50); (-5593990730191385, -50); (-4550086669979025, -49);
   (-4231834324514685, -50); (-2241636601821879, -49); (-681140920968111, -48); (-8613634435605673, -50);
   (-1795891841145431, -48); (-4550086669979025, -49); (-8879784538806831, -50); (-4267047155222095, -50);
   (-5665123849641487, -50); (-5022024048668933, -49); (-5097195539927191, -49); (-5042560177824335, -51);
   (-6862442719318575, -50); (-2838409871435501, -48); (-4817726417900165, -49); (-5529636077373715, -50)];
  [(-4778640266473879, -50); (-3350965592270903, -49); (-545468053549209, -46); (-770499243251775, -47);
   (-5720406213255465, -50); (-4613122174786049, -50); (-1221067480586671, -47); (-2881980637522621, -48);
   (-1571567197498953, -48); (-4077825736833797, -48); (-765131877260933, -47); (-7639825648838659, -49);
   (-3362702291597927, -49); (-8545858646677929, -49); (-6377007186983805, -50); (-4077825736833797, -48);
   (-1838423972164959, -49); (-4272020447899599, -49); (-4653930238248719, -51); (-8205094361971461, -51);
   (-2137862508385237, -48); (-6876393187558631, -50); (-8630108304502585, -51); (-7251874049348197, -50);
   (-3205586943303241, -49); (-5115483828461505, -49); (-6404019343114543, -50); (-8118239523352107, -50);
   (-31000376940275, -43); (-3444143430252143, -48); (-2618493781051151, -48); (-3058846125250147, -49);
   (-5159982502856489, -50); (-8566416203588373, -50); (-333191394646211, -47); (-8747046759350405, -50);
   (-5344179108886721, -50); (-3220868854580527, -48); (-2587186547998873, -48); (-3842860140058957, -49);
   (-2107731312008367, -49); (-20557815147393, -41); (-7710372095808335, -50); (-176916355098137, -44);
   (-6910353034262997, -50); (-7060201445894847, -49); (-5632298589908327, -50); (-7684931140568423, -51);
   (-2265085010564377, -48); (-4707145661747611, -49); (-2371224582945785, -49); (-6400035952635451, -50);
   (-1259049354756361, -47); (-704283527431843, -47); (-7982734101302087, -50); (-8955145216262933, -51);
   (-5915289871971835, -49); (-1662084325869577, -49); (-4461624815474699, -50); (-2767314213360535, -49);
   (-3654465586605171, -48); (-2448096832574867, -48); (-6825402051957949, -51); (-4173460671427567, -50);
   (-212101630060235, -46); (-3065272352063707, -48); (-6918724000200007, -49); (-3852483450522339, -49);
   (-6137954146207067, -50); (-2646181210894103, -49); (-5923897704243681, -50); (-4320031248768903, -50);
   (-1704530399344589, -49); (-7360031445545173, -50); (-2226023237997639, -49); (-2269603942480185, -50);
   (-5645769181219195, -50); (-2611485743288273, -48); (-3957715606434921, -49); (-778282523300895, -47);
   (-4077825736833797, -48); (-7639825648838659, -49)];
  [];
  [(-5366161098082297, -50); (-3970494895950715, -49); (-1247954224712501, -47); (-6676599983633597, -50);
   (-5836740165401615, -50); (-616811019314425, -47); (-5825886106152095, -49); (-1528363841814393, -47);
   (-6660438463455557, -50); (-6732211282257867, -50); (-428873525851083, -46); (-442994470684013, -46);
   (-2253215498346293, -49); (-2438263946894993, -48); (-301290351101121, -47); (-7198066747167507, -51);
   (-7900043464717357, -50); (-6478127201106963, -50); (-4831912425921305, -50); (-8530114828221511, -50);
   (-3220054546898351, -49); (-2483396390590629, -48); (-1010377939037383, -47); (-570559836367939, -46);
   (-5306759195881639, -50); (-6341711930981031, -49); (-1598712880351247, -48); (-657346795243505, -47);
   (-275534312135421, -45); (-829269539589515, -48); (-5561297584960361, -49); (-3365959551995683, -48);
   (-6062532320388535, -50); (-3365959551995683, -48); (-5287980982680369, -49); (-7860534151010863, -50);
   (-8119927065230307, -51); (-5561297584960361, -49); (-722840850177641, -47); (-1311565475802071, -47);
   (-3463918643635399, -49); (-6341711930981031, -49); (-2369923894450133, -49); (-3664187004310259, -50);
   (-4128290874178151, -49); (-2320681941006745, -48); (-4681635333670021, -50); (-8979942648953953, -51);
   (-4356547437901609, -49); (-4750094402653471, -50); (-6448939726569421, -50); (-4650699571931137, -50);
   (-2438263946894993, -48); (-331517047965977, -47); (-5861594588728857, -51); (-4786963446078279, -50);
   (-6341711930981031, -49); (-8301623750871073, -50); (-7612783754379689, -51); (-7842932181402647, -51);
   (-3739120200771685, -50); (-2483396390590629, -48); (-3365959551995683, -48); (-6053136717267489, -50);
   (-4858581126707083, -50); (-3273050087448439, -49); (-446501112244043, -46); (-147058726554543, -45);
   (-4605833561398973, -50); (-1657849600874323, -48); (-716691510797483, -47); (-4376339732848641, -51);
   (-4337393545295139, -50); (-4614551674053441, -49); (-1436333520064927, -48); (-6732211282257867, -50);
   (-1528363841814393, -47); (-743938094746337, -46)];
  [];
  [(-1537534085514241, -48); (-8623991288992137, -50); (-7387063815524551, -50); (-1358519162213491, -48);
   (-573663456251953, -47); (-392671765683133, -46); (-6433091233446643, -50); (-8623991288992137, -50);
   (-5652676887425973, -50); (-981469968920143, -49); (-8941364510503173, -51); (-1702981323328399, -48);
   (-2751166952454729, -49); (-6606649469503881, -50); (-7063162596950797, -50); (-7063162596950797, -50);
   (-5045820777462541, -50); (-5924201224730083, -50); (-5826235123483211, -50); (-6811500705807163, -51);
   (-392671765683133, -46); (-7843576942971467, -50); (-1904446651997477, -49); (-7843576942971467, -50);
   (-3015755473646463, -49); (-392671765683133, -46); (-6505355829461413, -51); (-6524520198869943, -51);
   (-8623991288992137, -50); (-7746495913625249, -51); (-1358519162213491, -48); (-1358519162213491, -48);
   (-7387063815524551, -50); (-5093738643371921, -50); (-1969025898101213, -50); (-3793363403891107, -50);
   (-1358519162213491, -48); (-8265589045137415, -51); (-1198645868456335, -48); (-1038459998346445, -48);
   (-7387063815524551, -50); (-609032817675663, -47); (-7843576942971467, -50); (-7843576942971467, -50);
   (-8224270458103085, -51); (-7387063815524551, -50); (-8623991288992137, -50); (-8623991288992137, -50);
   (-5002516603345421, -51); (-312491206102191, -46); (-392671765683133, -46); (-7063162596950797, -50);
   (-1702981323328399, -48)];
  [];
  [];
  [(-6223485709485983, -50); (-2174335164105289, -48); (-2597695314333915, -48); (-7460413182953569, -50);
   (-6659339543415735, -50); (-5485563195225411, -50); (-7017886569615779, -50); (-471691475749953, -46);
   (-5585597801678165, -49); (-4099940600895083, -49); (-180654971754631, -45); (-4967134064944371, -49);
   (-3619939923368993, -50); (-4050600436771897, -50); (-4805183455657495, -49); (-6404015484268527, -50);
   (-6722490668692997, -50); (-2597695314333915, -48); (-7981280963218157, -50); (-4805183455657495, -49);
   (-8471405539094275, -50); (-551872035330895, -46); (-6209670813379909, -50); (-3418157388630311, -49);
   (-7168229552132295, -50); (-8283319360734337, -50); (-8021903954118627, -51); (-7075637684988373, -50);
   (-4024769109636825, -49); (-7675900856471179, -51); (-4099940600895083, -49); (-2320998861963739, -49);
   (-5585597801678165, -49); (-6295223338967703, -50); (-551872035330895, -46); (-5464116834282385, -50);
   (-4046572168049615, -50); (-7593025091826733, -50); (-7743368074343249, -50); (-2678081778226877, -49);
   (-5123257704206993, -51); (-4967134064944371, -49); (-2174614680951401, -49); (-6885274660742615, -50);
   (-2646798733107647, -49); (-7640942957736113, -50); (-5460181378343733, -51); (-1395846870042581, -49);
   (-7177438961539349, -51); (-199120147715487, -45); (-8536096540032465, -51); (-7679244286652877, -51);
   (-4779739026213959, -50); (-7502905014713667, -50); (-6340567718255299, -50); (-5673649373585349, -50);
   (-4099940600895083, -49); (-2339782401919447, -48); (-4611702625191563, -50); (-6885274660742615, -50);
   (-6659339543415735, -50); (-7168229552132295, -50); (-7690120176382329, -52); (-847595483744349, -48);
   (-2597695314333915, -48); (-3103567167303893, -50); (-1496558729989477, -48); (-5585597801678165, -49);
   (-4805183455657495, -49)];
  [(-2834492449251153, -49); (-231479564458161, -45); (-1214454197502277, -47); (-3523893040505503, -49);
   (-3812119627607805, -50); (-7308847141166875, -51); (-4300271885708087, -49); (-8979377831283127, -50);
   (-3197970455474805, -49); (-833330013859011, -47); (-1776490898217307, -48); (-1405589280302177, -48);
   (-1163530034974121, -48); (-1910496258165947, -48); (-2554491270762611, -50); (-6060210359875351, -51);
   (-7418549139241787, -50); (-3288926624362283, -49); (-1268272968319281, -48); (-6525718939880043, -50);
   (-5234101249817285, -50); (-7903567584339675, -50); (-1558857292433873, -48); (-4951859879189077, -49);
   (-1605958421309591, -49); (-8979377831283127, -50); (-1635276833262851, -48); (-8347403315620829, -51);
   (-8342891066336815, -50); (-6469391882832077, -51); (-2760670282649717, -48); (-801781078735545, -47);
   (-787719363915013, -46); (-2532413718926259, -48); (-3841974446296943, -49); (-4140145865720077, -50);
   (-5911547738309769, -49); (-3827899964384931, -49); (-3574720016634119, -49); (-4896932712244675, -50);
   (-3239637719240639, -50); (-2408048855268511, -48); (-3214088733086185, -49); (-1538913119282473, -48);
   (-3074170706542033, -49); (-2353398795625509, -48); (-5740221515668787, -50); (-661635500196997, -46);
   (-2466745557862989, -49); (-5911547738309769, -49); (-8715219340843715, -51); (-5302459614930081, -50);
   (-4736295204478049, -50); (-2697860956740417, -48); (-7727537558251583, -50); (-4222689575252541, -50);
   (-5650101438555721, -50); (-928061195442769, -49); (-3444686048429159, -49); (-1315900624613693, -48);
   (-981595811307587, -47); (-2038701221994219, -48); (-5564491822994695, -50); (-6854726289232027, -50);
   (-6551484364175439, -50); (-8979377831283127, -50); (-5330980321557435, -51); (-6200544798720907, -50);
   (-787719363915013, -46); (-7385268886551653, -50); (-5044025848489643, -50)];
  [(-3400696097935081, -50); (-2620281751914411, -50); (-4181110443955751, -50); (-4181110443955751, -50);
   (-4181110443955751, -50); (-2620281751914411, -50); (-4181110443955751, -50); (-4181110443955751, -50);
   (-1184522224138605, -49); (-3400696097935081, -50); (-3400696097935081, -50); (-3400696097935081, -50);
   (-4181110443955751, -50); (-3400696097935081, -50); (-1184522224138605, -49); (-4181110443955751, -50);
   (-4181110443955751, -50); (-1184522224138605, -49)];
  [];
  [(-4181110443955751, -50); (-4181110443955751, -50); (-3400696097935081, -50); (-4181110443955751, -50);
   (-4181110443955751, -50); (-1184522224138605, -49); (-4181110443955751, -50); (-5888365940976329, -51);
   (-5888365940976329, -51); (-5888365940976329, -51); (-3400696097935081, -50); (-3400696097935081, -50);
   (-3400696097935081, -50); (-1839867405893741, -50); (-2620281751914411, -50); (-4181110443955751, -50);
   (-4181110443955751, -50)]].
