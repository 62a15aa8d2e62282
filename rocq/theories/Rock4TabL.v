(* The tables of Rock4-L/include/coeffs-rock4, as decimal numbers (m, e) = m*10^e,
   in the order of the file.  The conversion of the literals to double is not modelled.
   Generated by a script from the file. *)
From Coq Require Import ZArith List.
Import ListNotations.
Open Scope Z_scope.

(* coeffs-rock4:6 *)
Definition l_RECF : list (Z * Z) := [
(1762962957651941, -16); (1067131485543800, -16); (1296319693918818, -16); (6097984609869632, -18);
(7296375286357569, -17); (8749824867149327, -17); (6126949805354446, -18); (1026802330400501, -16);
(3026744779900850, -17); (5345766591735225, -17); (6421114488497465, -17); (6297251335072349, -18);
(7361067001944596, -17); (2954244012876854, -17); (8450213007949955, -17); (6370198138618569, -17);
(4102541073974864, -17); (4936734181284644, -17); (6437548414781547, -18); (5655964819916140, -17);
(3008674068005620, -17); (6301337991392047, -17); (6092514503458917, -17); (7122116739390528, -17);
(1014508394981259, -16); (3256098772501858, -17); (3923994550846150, -17); (6548791582739922, -18);
(4499511886194148, -17); (3061034821432499, -17); (5000269311882022, -17); (6157339578289546, -17);
(5465516336291797, -17); (9570538881974760, -17); (6104333020232396, -17); (1406290220864037, -16);
(2651417777294218, -17); (3199100352247176, -17); (6637416338030012, -18); (3671473048471728, -17);
(3104646653985547, -17); (4080808506561111, -17); (6240780397840483, -17); (4441697436286914, -17);
(9608256539833336, -17); (4790790953491602, -17); (1314940925346221, -16); (5299225195731577, -17);
(1795490141555294, -16); (2203688946407306, -17); (2661454798174795, -17); (6708509073973803, -18);
(3056730958573840, -17); (3140468274131318, -17); (3399153986085689, -17); (6314347647488826, -17);
(3698314358022203, -17); (9706950916624359, -17); (3966494820191785, -17); (1312524251550016, -16);
(4237605842481057, -17); (1670258610104497, -16); (4651311259978263, -17); (2174924541420837, -16);
(1862250741526137, -17); (2250861576538788, -17); (6766202022280821, -18); (2586805882924489, -17);
(3170042346032810, -17); (2877953008086195, -17); (6376714023863055, -17); (3131867762450776, -17);
(9801783524123061, -17); (3355864056201850, -17); (1322218594416999, -16); (3560688231225300, -17);
(1658724905539629, -16); (3777371673577270, -17); (2016177039517425, -16); (4119698781191684, -17);
(2539572842035754, -16); (1595000101933615, -17); (1929098080329146, -17); (6813771091892661, -18);
(2218226060548395, -17); (3194763050768121, -17); (2468951849041972, -17); (6429708643843554, -17);
(2687566748685502, -17); (9885398134767074, -17); (2879687047315825, -17); (1332911334324939, -16);
(3051024265050759, -17); (1666672556601528, -16); (3211180339134084, -17); (1993212628717513, -16);
(3387840798530223, -17); (2348117800966209, -16); (3672204698847085, -17); (2881723275817451, -16);
(1381614369504127, -17); (1671925338932986, -17); (6853396714797705, -18); (1923405366588467, -17);
(3215586472031486, -17); (2141625996563439, -17); (6474907548155117, -17); (2331937590115891, -17);
(9958008772514044, -17); (2499024766114432, -17); (1342748583683893, -16); (2647050763871464, -17);
(1677665086248348, -16); (2780637354179997, -17); (1998070962536277, -16); (2908398701850636, -17);
(2312827828857880, -16); (3054428937166170, -17); (2663434084812225, -16); (3290759457513454, -17);
(3198421010321994, -16); (1209208337462717, -17); (1463956211973881, -17); (6886319232429428, -18);
(1684821591214353, -17); (3233043835607318, -17); (1876598514920064, -17); (6513176017688395, -17);
(2043905166732186, -17); (1002021458157551, -16); (2190770330626050, -17); (1351369448238108, -16);
(2320633429617816, -17); (1688220571485906, -16); (2436655982458731, -17); (2008416611727759, -16);
(2542750723914090, -17); (2313613787046680, -16); (2646792773501215, -17); (2616749611549993, -16);
(2769967463189309, -17); (2964076499426887, -16); (2970440766084731, -17); (3502117812643117, -16);
(1067034715302655, -17); (1292329710584654, -17); (6914320860943588, -18); (1487812037525849, -17);
(3248006428304434, -17); (1657652594868420, -17); (6546254336130322, -17); (1805880263820550, -17);
(1007449363462607, -16); (1936010074490956, -17); (1358990057232774, -16); (2051007922030995, -17);
(1697855056821405, -16); (2153416689781703, -17); (2019295372474008, -16); (2245709430196045, -17);
(2322718220467692, -16); (2331275056513504, -17); (2612402870437151, -16); (2417201314765524, -17);
(2904095866946978, -16); (2521646587374857, -17); (3246308095620147, -16); (2690764435467064, -17);
(3778240223542354, -16); (9487431939295813, -18); (1149440138138981, -17); (6938125808908258, -18);
(1323700105262745, -17); (3260808020167218, -17); (1475188210924817, -17); (6574755356940067, -17);
(1607452560476730, -17); (1012162270929412, -16); (1723591531771676, -17); (1365667423922086, -16);
(1826211676183441, -17); (1706429091716792, -16); (1917496536345655, -17); (2029443389633356, -16);
(1999362278384748, -17); (2333350798953319, -16); (2073811037471499, -17); (2619641661449880, -16);
(2143841440760416, -17); (2894413776906615, -16); (2215820736295387, -17); (3175489053704050, -16);
(2305270619849904, -17); (3512439576972030, -16); (2449014264738941, -17); (4036179314586852, -16);
(8494564197695063, -18); (1029439196351078, -17); (6958406921839354, -18); (1185809158880236, -17);
(3271773184277712, -17); (1321815865055247, -17); (6599313162331371, -17); (1440610601409755, -17);
(1016249390468336, -16); (1544947770682643, -17); (1371499803680846, -16); (1637143556780157, -17);
(1713990070155131, -16); (1719123774995229, -17); (2038574724036485, -16); (1792514377153798, -17);
(2343593316805466, -16); (1858798779956469, -17); (2629560717194659, -16); (1919659343371288, -17);
(2899296316580346, -16); (1977810373828767, -17); (3160315643000932, -16); (2039024270914711, -17);
(3432192271881122, -16); (2116722465269759, -17); (3765294846983478, -16); (2240833445471075, -17);
(4283514372117345, -16); (7648100953017721, -18); (9270847111494889, -18); (6976054938079860, -18);
(1068147039692487, -17); (3281359708712486, -17); (1190898600388846, -17); (6620896361366048, -17);
(1298157114442065, -17); (1019862089328133, -16); (1392387354640439, -17); (1376687444923527, -16);
(1475662479151471, -17); (1720764656800079, -16); (1549702171989481, -17); (2046849615229637, -16);
(1615937354505817, -17); (2353135758405889, -16); (1675598207974404, -17); (2639750061864973, -16);
(1729863164965770, -17); (2908276346191939, -16); (1780176282268598, -17); (3162404475076796, -16);
(1828983612841132, -17); (3410641528662292, -16); (1881415834433531, -17); (3673520724841440, -16);
(1948852933531380, -17); (4000529139809629, -16); (2055287002810484, -17); (4505930922691549, -16);
(6923848173158734, -18); (8394702950361005, -18); (6991325631797234, -18); (9673911522111265, -18);
(3289687833321025, -17); (1078755757084805, -17); (6639729788616958, -17); (1176100014874140, -17);
(1023029830546846, -16); (1261643557454879, -17); (1381259991601194, -16); (1337254080889024, -17);
(1726770746288135, -16); (1404479965650065, -17); (2054241214472704, -16); (1464602837670213, -17);
(2361779701904081, -16); (1518698551280871, -17); (2649344026216049, -16); (1567717541900471, -17);
(2918033340368942, -16); (1612624123496420, -17); (3170079069341164, -16); (1654688879900881, -17);
(3409811920927984, -16); (1696136666824286, -17); (3646547307991162, -16); (1741546145080310, -17);
(3901537483439419, -16); (1800636597179543, -17); (4223218228522266, -16); (1892881341268367, -17);
(4717326233521751, -16); (6298588439596636, -18); (7638030626687965, -18); (7004655851265844, -18);
(8803453943265294, -18); (3296982845467406, -17); (9818444950365933, -18); (6656291057106479, -17);
(1070595626475817, -17); (1025827278785117, -16); (1148608766389635, -17); (1385316612194638, -16);
(1217575810897931, -17); (1732125747484649, -16); (1278899412440368, -17); (2060869881923743, -16);
(1333738432024735, -17); (2369597744170469, -16); (1383056388512692, -17); (2658180187652428, -16);
(1427674437223498, -17); (2927507447256686, -16); (1468343958863289, -17); (3179214676099940, -16);
(1505875998976432, -17); (3415951393087426, -16); (1541407984395701, -17); (3642544652079210, -16);
(1576969712450036, -17); (3868951368176343, -16); (1616644053575092, -17); (4116861214445555, -16);
(1668748198434585, -17); (4433331570075596, -16); (1749188724059570, -17); (4916033800451471, -16);
(5754360678751824, -18); (6979206263458857, -18); (7016389205940601, -18); (8045335113843407, -18);
(3303423464885706, -17); (8974185166510452, -18); (6670962735009836, -17); (9786634336394069, -18);
(1028314890330009, -16); (1050097258572427, -17); (1388938643805943, -16); (1113260003649783, -17);
(1736928024956524, -16); (1169428623074936, -17); (2066843246414360, -16); (1219657523409050, -17);
(2376686083847098, -16); (1264820000840307, -17); (2666274169278879, -16); (1305648757877945, -17);
(2936397261253015, -16); (1342781257742339, -17); (3188429723296673, -16); (1376825401666917, -17);
(3424305607919373, -16); (1408478812041018, -17); (3646959159353649, -16); (1438768989133101, -17);
(3861600014637602, -16); (1469542216481714, -17); (4078642344326945, -16); (1504419066763009, -17);
(4319869811400004, -16); (1550494890247615, -17); (4630491704469774, -16); (1620775053166640, -17);
(5100139240423402, -16); (5278040811520425, -18); (6402421198476983, -18); (7026749310824704, -18);
(7381444032562888, -18); (3309125386700502, -17); (8234685519924101, -18); (6683990648107069, -17);
(8981222939541469, -18); (1030531116670419, -16); (9637773923336657, -18); (1392177117208699, -16);
(1021841796444464, -17); (1741238287384007, -16); (1073483180895483, -17); (2072226942408981, -16);
(1119665624742548, -17); (2383105498941010, -16); (1161186412382382, -17); (2673653866792523, -16);
(1198709958412187, -17); (2944607083863120, -16); (1232800940556657, -17); (3197217653056301, -16);
(1263963481803662, -17); (3433101656487968, -16); (1292700918588335, -17); (3654364911202174, -16);
(1319625157476125, -17); (3864151426812009, -16); (1345671217793918, -17); (4067976665874104, -16);
(1372517143690529, -17); (4276578990766819, -16); (1403368592830970, -17); (4511616717492440, -16);
(1444284729184994, -17); (4816264620225250, -16); (1505946839641039, -17); (5272614695163532, -16);
(4487666665675140, -18); (5444990141910759, -18); (7044130283096086, -18); (6279049188091140, -18);
(3318723192008640, -17); (7006368632847780, -18); (6706002621750721, -17); (7643068862200888, -18);
(1034291291409337, -16); (8203282681027361, -18); (1397696656221023, -16); (8698916419500412, -18);
(1748620369064401, -16); (9139847522019589, -18); (2081495587015637, -16); (9534232617493163, -18);
(2394220617811718, -16); (9888812556097355, -18); (2686520584410767, -16); (1020918148777924, -17);
(2959071488424056, -16); (1050001965367601, -17); (3213027967445414, -16); (1076530680194359, -17);
(3449782554868110, -16); (1100855051222504, -17); (3670882760306343, -16); (1123309242673613, -17);
(3878099745344409, -16); (1144260835071195, -17); (4073711108103572, -16); (1164201330179298, -17);
(4261157327362403, -16); (1183914191832676, -17); (4446387149497601, -16); (1204780719832178, -17);
(4640454326093743, -16); (1229306401377462, -17); (4864269389633110, -16); (1261927726417314, -17);
(5156669165861498, -16); (1309943489239065, -17); (5586255185473764, -16); (3862975224403902, -18);
(4687945053900655, -18); (7058035858061096, -18); (5407041834964283, -18); (3326430524210259, -17);
(6034411186094848, -18); (6723753885455682, -17); (6583863333832890, -18); (1037337930420006, -16);
(7067509494777436, -18); (1402191813726617, -16); (7495554804930935, -18); (1754665679972444, -16);
(7876466939414612, -18); (2089130635289459, -16); (8217239718909702, -18); (2403434536707747, -16);
(8523653399761676, -18); (2697261364777181, -16); (8800501778860810, -18); (2971251237465357, -16);
(9051782217229110, -18); (3226519291781493, -16); (9280855010852164, -18); (3464394048134897, -16);
(9490584189896422, -18); (3686285665457733, -16); (9683478271871005, -18); (3893644369335397, -16);
(9861860805271805, -18); (4088004145802082, -16); (1002812139311295, -17); (4271141176574624, -16);
(1018513471380169, -17); (4445422442202590, -16); (1033699621003472, -17); (4614490459910935, -16);
(1049031549106710, -17); (4784539901229190, -16); (1065642152893932, -17); (4966599824214358, -16);
(1085488420737215, -17); (5180410345089337, -16); (1111843432827249, -17); (5460483341177160, -16);
(1149782035140485, -17); (5864065338958527, -16); (3360562419718235, -18); (4078879630499024, -18);
(7069329073407106, -18); (4705262542208223, -18); (3332708647415080, -17); (5251963413756800, -18);
(6738262760022461, -17); (5730951315737387, -18); (1039837553534775, -16); (6152725177551053, -18);
(1405895253957461, -16); (6526132611753048, -18); (1759668677811218, -16); (6858515620324401, -18);
(2095479655628776, -16); (7155939019582245, -18); (2411135586103733, -16); (7423415917481789, -18);
(2706287495885053, -16); (7665103884932816, -18); (2981548371545775, -16); (7884467592308588, -18);
(3238009173107087, -16); (8084411667986876, -18); (3476971265301733, -16); (8267390411961632, -18);
(3699801584879876, -16); (8435502610509800, -18); (3907862310698117, -16); (8590582044778893, -18);
(4102493117101150, -16); (8734298913651078, -18); (4285042785031379, -16); (8868296093454296, -18);
(4456965009415761, -16); (8994399398069297, -18); (4620016328614911, -16); (9114966064926033, -18);
(4776628155317611, -16); (9233473962579847, -18); (4930576673885005, -16); (9355505324217098, -18);
(5088149715467647, -16); (9490326792694050, -18); (5260104590494338, -16); (9653243364999375, -18);
(5464780715474396, -16); (9868600991484903, -18); (5732601989067468, -16); (1017225716053114, -17);
(6111363239215825, -16); (2950437825487400, -18); (3581555112941687, -18); (7078620126622295, -18);
(4132082643231012, -18); (3337886298886408, -17); (4612740002118506, -18); (6750261702445300, -17);
(5034004128539568, -18); (1041911190752577, -16); (5405066674282486, -18); (1408978061674918, -16);
(5733674167146439, -18); (1763848697593524, -16); (6026255228800488, -18); (2100805343046851, -16);
(6288120524548417, -18); (2417622608971423, -16); (6523660186046708, -18); (2713924596018528, -16);
(6736515451660314, -18); (2990302271326234, -16); (6929720582831246, -18); (3247828257866806, -16);
(7105817882799941, -18); (3487787217481978, -16); (7266950671260499, -18); (3711526971215219, -16);
(7414939513031372, -18); (3920379717842592, -16); (7551347241996011, -18); (4115626674210771, -16);
(7677539108440712, -18); (4298493831220752, -16); (7794746313920410, -18); (4470176901244603, -16);
(7904145004284749, -18); (4631903418970273, -16); (8006969465604538, -18); (4785052149162398, -16);
(8104689159161024, -18); (4931367316839517, -16); (8199295885823026, -18); (5073330960096394, -16);
(8293770604485683, -18); (5214794128662904, -16); (8392826136597125, -18); (5362017345344410, -16);
(8504035938797334, -18); (5525322098044688, -16); (8639408222270374, -18); (5721561451757253, -16);
(8817216208331321, -18); (5977434938944347, -16); (9063189668758037, -18); (6332939739614603, -16);
(2611205692460249, -18); (3170101091465017, -18); (7086356419628467, -18); (3657766349841741, -18);
(3342206181054271, -17); (4083661809252030, -18); (6760295824860309, -17); (4457037354538724, -18);
(1043649740346678, -16); (4786009222605838, -18); (1411570048315963, -16); (5077417957619811, -18);
(1767374059456163, -16); (5336940476209487, -18); (2105311844047106, -16); (5569266597573038, -18);
(2423131187370251, -16); (5778273412183262, -18); (2720433970782992, -16); (5967176862421978, -18);
(2997792878733318, -16); (6138656970674597, -18); (3256265499647623, -16); (6294959076405515, -18);
(3497123813254361, -16); (6437975105563999, -18); (3721703830438909, -16); (6569309029799851, -18);
(3931323996098995, -16); (6690330403814164, -18); (4127244218331418, -16); (6802219694622686, -18);
(4310650456887266, -16); (6906009314473870, -18); (4482657882348953, -16); (7002625080460826, -18);
(4644331547605672, -16); (7092934548851317, -18); (4796729107857300, -16); (7177811732959676, -18);
(4940976831610963, -16); (7258232689273568, -18); (5078399409574430, -16); (7335424050171227, -18);
(5210737517163408, -16); (7411097366633641, -18); (5340506436534539, -16); (7487815663348852, -18);
(5471575324915496, -16); (7569550927915151, -18); (5610077596302204, -16); (7662488506257662, -18);
(5765785117760304, -16); (7776079157718089, -18); (5954049494922431, -16); (7924148666854938, -18);
(6198219542319461, -16); (8125409481841734, -18); (6531839888628567, -16); (2329161903934607, -18);
(2827942346666575, -18); (7092767801324573, -18); (3263256653829519, -18); (3345792087848227, -17);
(3643524065941897, -18); (6768640663901933, -17); (3976979208186409, -18); (1045098632090649, -16);
(4270848280167040, -18); (1413735187729310, -16); (4531221910361700, -18); (1770326285691667, -16);
(4763154723278143, -18); (2109095929304028, -16); (4970822485283018, -18); (2427770065864133, -16);
(5157677387973698, -18); (2725932360325259, -16); (5326583047275474, -18); (3004140385861841, -16);
(5479926007282439, -18); (3263439258620141, -16); (5619705807004115, -18); (3505090634425326, -16);
(5747607114086801, -18); (3730421698484556, -16); (5865057476337201, -18); (3940742505245702, -16);
(5973273864880296, -18); (4137303052977993, -16); (6073300781079440, -18); (4321274134643955, -16);
(6166042448892977, -18); (4493743356584487, -16); (6252291618234036, -18); (4655722399143190, -16);
(6332757862946729, -18); (4808165109947856, -16); (6408099103723341, -18); (4951999355274510, -16);
(6478961616347051, -18); (5088179499753192, -16); (6546036269964925, -18); (5217771724376283, -16);
(6610142518258857, -18); (5342092003559118, -16); (6672357066182766, -18); (5462927399000752, -16);
(6734211186973384, -18); (5582886150793852, -16); (6797988292026415, -18); (5705940457094262, -16);
(6867157346618580, -18); (5838243594874886, -16); (6946966207628190, -18); (5989305413025341, -16);
(7045163972244657, -18); (6173557330297905, -16); (7172668498534273, -18); (6412138054673769, -16);
(7343669551813224, -18); (6734212283950197, -16); (2088962222558656, -18); (2536501141538391, -18);
(7098312096014856, -18); (2927174164471204, -18); (3348897507192802, -17); (3268517695916878, -18);
(6775879346915350, -17); (3567904939390041, -18); (1046357814625728, -16); (3831806772332035, -18);
(1415620734408565, -16); (4065677361393518, -18); (1772903102475344, -16); (4274043151934446, -18);
(2112406912998520, -16); (4460643560808929, -18); (2431839618927255, -16); (4628570053481958, -18);
(2730769378663360, -16); (4780387068478273, -18); (3009740811016449, -16); (4918231891978967, -18);
(3269788261694700, -16); (5043895306797768, -18); (3512164460435231, -16); (5158886125836192, -18);
(3738189139504120, -16); (5264482738771292, -18); (3949165867949340, -16); (5361774417899160, -18);
(4146338301275897, -16); (5451694687903237, -18); (4330869551935628, -16); (5535048699155984, -18);
(4503835468466499, -16); (5612536310885108, -18); (4666226835980815, -16); (5684772523136652, -18);
(4818958265481784, -16); (5752307033652531, -18); (4962883637349025, -16); (5815645095778566, -18);
(5098819947919942, -16); (5875272604331699, -18); (5227583713586083, -16); (5931689562795883, -18);
(5350047139508995, -16); (5985457948104635, -18); (5467225528673463, -16); (6037272660724469, -18);
(5580413411348073, -16); (6088067820748090, -18); (5691395094905580, -16); (6139174903693435, -18);
(5802765872262356, -16); (6192552890264469, -18); (5918411775133858, -16); (6251110114702117, -18);
(6044203697962170, -16); (6319123951993900, -18); (6188952404877303, -16); (6402719127039078, -18);
(6365612063366765, -16); (6510255774185010, -18); (6592545134576846, -16); (6652267840556133, -18);
(6894261807467007, -16); (1884070525273232, -18); (2287865166522269, -18); (7103061833161608, -18);
(2640414555924009, -18); (3351561092037226, -17); (2948504867845529, -18); (6782096720073962, -17);
(3218776897022670, -18); (1047441025101927, -16); (3457059211747976, -18); (1417245576749319, -16);
(3668264712145178, -18); (1775127832127863, -16); (3856470649104565, -18); (2115271336150133, -16);
(4025045325158119, -18); (2435368006995073, -16); (4176773382240289, -18); (2734972927884814, -16);
(4313964750721690, -18); (3014619731636417, -16); (4438544635664399, -18); (3275333564649527, -16);
(4552126174118954, -18); (3518359485899692, -16); (4656068554335920, -18); (3745010840861863, -16);
(4751523397588311, -18); (3956585819539499, -16); (4839471843717534, -18); (4154323324012205, -16);
(4920754357241174, -18); (4339381722015443, -16); (4996094895419632, -18); (4512831048238278, -16);
(5066120791624743, -18); (4675653273310193, -16); (5131379519337958, -18); (4828747738428288, -16);
(5192353422296487, -18); (4972940502928434, -16); (5249473538511721, -18); (5108997625078284, -16);
(5303133835275671, -18); (5237643599692746, -16); (5353707549485549, -18); (5359587556465524, -16);
(5401567951803124, -18); (5475561617516223, -16); (5447116802332092, -18); (5586378279840697, -16);
(5490825128586838, -18); (5693017116602867, -16); (5533292803086976, -18); (5796755768842047, -16);
(5575335692614607, -18); (5899366290511978, -16); (5618111542531525, -18); (6003405110877628, -16);
(5663297103480300, -18); (6112631579002907, -16); (5713326390293707, -18); (6232591473997167, -16);
(5771686951858539, -18); (6371386281547686, -16); (5843235308872718, -18); (6540591245646711, -16);
(5934415308321717, -18); (6756138475691030, -16); (6053127455671619, -18); (7038679036965546, -16);
(1708003175642380, -18); (2074181532622547, -18); (7107154835723396, -18); (2393937473496849, -18);
(3353858755734360, -17); (2673414535955727, -18); (6787466315584890, -17); (2918625868457997, -18);
(1048377783441727, -16); (3134849526067874, -18); (1418652820405583, -16); (3326534476511183, -18);
(1777057753498972, -16); (3497372950002969, -18); (2117760550049606, -16); (3650415148383601, -18);
(2438439995727389, -16); (3788182708532486, -18); (2738640090744446, -16); (3912767381261045, -18);
(3018885114907114, -16); (4025912539016479, -18); (3280192335266340, -16); (4129078986309924, -18);
(3523800195135267, -16); (4223497595500826, -18); (3751016505461964, -16); (4310211297602812, -18);
(3963134824357808, -16); (4390108627214284, -18); (4161390116668366, -16); (4463950627129625, -18);
(4346937216368967, -16); (4532392561972495, -18); (4520842562952224, -16); (4596001602217271, -18);
(4684083677796514, -16); (4655271425546727, -18); (4837553218910148, -16); (4710634539896850, -18);
(4982065930947042, -16); (4762473060977909, -18); (5118367810144925, -16); (4811128680431732, -18);
(5247147588413267, -16); (4856912649796014, -18); (5369051384586530, -16); (4900116799220620, -18);
(5484702216816450, -16); (4941026937249812, -18); (5594727154468603, -16); (4979940477837468, -18);
(5699796357324364, -16); (5017190859382927, -18); (5800680268418966, -16); (5053182300865962, -18);
(5898333966076153, -16); (5088439691236800, -18); (5994021272105722, -16); (5123679830879367, -18);
(6089495614023648, -16); (5159911463507254, -18); (6187259309040364, -16); (5198571556852845, -18);
(6290926122189227, -16); (5241701843449486, -18); (6405709220757223, -16); (5292158145073340, -18);
(6539038212088008, -16); (5353817484714892, -18); (6701255576222123, -16); (5431693560278526, -18);
(6906222214439113, -16); (5531783368314496, -18); (7171434625046844, -16); (1486821222610860, -18);
(1805710570607849, -18); (7112315426865264, -18); (2084226678642758, -18); (3356758851849525, -17);
(2327708403877407, -18); (6794252207314784, -17); (2541382628281658, -18); (1049563283476954, -16);
(2729837665345000, -18); (1420436509870845, -16); (2896941194350830, -18); (1779508117794810, -16);
(3045903028705765, -18); (2120926886975343, -16); (3179374802697815, -18); (2442355417695174, -16);
(3299548613427395, -18); (2743324022628396, -16); (3408242823717034, -18); (3024345386679296, -16);
(3506972940214846, -18); (3286426953033458, -16); (3597008842757047, -18); (3530798855126308, -16);
(3679420554768286, -18); (3758761896368122, -16); (3755114750481509, -18); (3971603743636597, -16);
(3824863905497256, -18); (4170554403005484, -16); (3889329651040080, -18); (4356764468047173, -16);
(3949081575434511, -18); (4531296561693286, -16); (4004612453985609, -18); (4695124355979618, -16);
(4056350682593341, -18); (4849135873526999, -16); (4104670535603563, -18); (4994139167345992, -16);
(4149900758174290, -18); (5130869342770428, -16); (4192331932996859, -18); (5259996460201358, -16);
(4232223028377952, -18); (5382134282701107, -16); (4269807540393116, -18); (5497850203277219, -16);
(4305299690448572, -18); (5607677074343013, -16); (4338901239307418, -18); (5712128128876574, -16);
(4370809641681970, -18); (5811716792241682, -16); (4401228508048884, -18); (5906984004679025, -16);
(4430381681233268, -18); (5998536784140458, -16); (4458532691684085, -18); (6087103236556506, -16);
(4486011931533010, -18); (6173611125584528, -16); (4513254549169507, -18); (6259299431307766, -16);
(4540852685066905, -18); (6345874840856066, -16); (4569625913830092, -18); (6435727138959286, -16);
(4600712887286172, -18); (6532217324580875, -16); (4635683708228730, -18); (6640046346388578, -16);
(4676663849565939, -18); (6765693546213282, -16); (4726442410018883, -18); (6917869917669843, -16);
(4788505706770704, -18); (7107844374668939, -16); (4866891449054713, -18); (7349355366345482, -16);
(1306017463771605, -18); (1586222301823758, -18); (7116548254584538, -18); (1830990793066982, -18);
(3359140173567671, -17); (2045006139498853, -18); (6799831246271334, -17); (2232854278235691, -18);
(1050539332243899, -16); (2398561178839865, -18); (1421907384347976, -16); (2545520579058178, -18);
(1781532257250431, -16); (2676548965485182, -18); (2123547392925449, -16); (2793973015829898, -18);
(2445602455405584, -16); (2899716152387136, -18); (2747216803842120, -16); (2995373840546507, -18);
(3028893817005614, -16); (3082275794427197, -18); (3291633014860622, -16); (3161536205810221, -18);
(3536657782024154, -16); (3234093916059993, -18); (3765263180987164, -16); (3300744456546394, -18);
(3978732008486888, -16); (3362165629048766, -18); (4178290151302299, -16); (3418937992980868, -18);
(4365084718269216, -16); (3471561346521851, -18); (4540175351893392, -16); (3520468055585971, -18);
(4704533078136206, -16); (3566033899133432, -18); (4859043358175601, -16); (3608586955892009, -18);
(5004511375120722, -16); (3648414949109787, -18); (5141668418466542, -16); (3685771386301219, -18);
(5271178746069831, -16); (3720880775408019, -18); (5393646641028532, -16); (3753943164375919, -18);
(5509623620882760, -16); (3785138236518451, -18); (5619615952404358, -16); (3814629199517684, -18);
(5724092815186362, -16); (3842566733485300, -18); (5823495672538734, -16); (3869093316887355, -18);
(5918249678197956, -16); (3894348333795344, -18); (6008778302882713, -16); (3918474488962536, -18);
(6095522840022940, -16); (3941626226723230, -18); (6178969082896937, -16); (3963981072925327, -18);
(6259684294183701, -16); (3985755098069792, -18); (6338368642128979, -16); (4007224021775936, -18);
(6415926549632834, -16); (4028751796394626, -18); (6493564801329609, -16); (4050828701392520, -18);
(6572925493481835, -16); (4074120789204574, -18); (6656262309872097, -16); (4099531432075899, -18);
(6746666723127143, -16); (4128272797582476, -18); (6848343774930394, -16); (4161938830162795, -18);
(6966920189552035, -16); (4202559743668019, -18); (7109733150553114, -16); (4252599514137185, -18);
(7285986885865631, -16); (4314833901724070, -18); (7506571441023483, -16); (1156343000755387, -18);
(1404504257957441, -18); (7120061440091347, -18); (1621310545540372, -18); (3361118414788869, -17);
(1810903712325119, -18); (6804470745318069, -17); (1977340288814310, -18); (1051351961493040, -16);
(2124181703071103, -18); (1423133589772792, -16); (2254430165931555, -18); (1783222117476625, -16);
(2370577235911165, -18); (2125738546054181, -16); (2474681149731246, -18); (2448322054772776, -16);
(2568443387429520, -18); (2750483122588739, -16); (2653275289328116, -18); (3032717571879833, -16);
(2730353093366796, -18); (3296018469202774, -16); (2800662377663822, -18); (3541603675689819, -16);
(2865033605362301, -18); (3770763523850850, -16); (2924170474532069, -18); (3984776764701321, -16);
(2978672551304409, -18); (4184865833334669, -16); (3029053394756756, -18); (4372174902153924, -16);
(3075755134140899, -18); (4547761117084665, -16); (3119160251996799, -18); (4712593365381469, -16);
(3159601161354295, -18); (4867555224942895, -16); (3197368036290039, -18); (5013450107382228, -16);
(3232715256012342, -18); (5151007425806035, -16); (3265866747398978, -18); (5280889117936882, -16);
(3297020454653708, -18); (5403696166527656, -16); (3326352123823280, -18); (5519974959907685, -16);
(3354018561785408, -18); (5630223474016425, -16); (3380160512425799, -18); (5734897364461758, -16);
(3404905286403203, -18); (5834416154573392, -16); (3428369285319778, -18); (5929169809805325, -16);
(3450660577239604, -18); (6019526114875673, -16); (3471881710106394, -18); (6105839432336187, -16);
(3492132995268978, -18); (6188461635645998, -16); (3511516558294448, -18); (6267756293962285, -16);
(3530141542180836, -18); (6344117559126738, -16); (3548130962196775, -18); (6417995687010485, -16);
(3565630852851213, -18); (6489931729721409, -16); (3582822510857449, -18); (6560604660107810, -16);
(3599938804777734, -18); (6630894993854867, -16); (3617285646093928, -18); (6701969730666828, -16);
(3635269699036237, -18); (6775393849143700, -16); (3654433055424882, -18); (6853273049469121, -16);
(3675494570182433, -18); (6938429782822218, -16); (3699395273559710, -18); (7034607793792287, -16);
(3727340922414418, -18); (7146686166221225, -16); (3760827388752240, -18); (7280857713064263, -16);
(3801623782166765, -18); (7444684055765861, -16); (3851675608889073, -18); (7646881040691488, -16);
(1031010001534118, -18); (1252325311246044, -18); (7123010369617354, -18); (1445699377070109, -18);
(3362780174930066, -17); (1614821702453833, -18); (6808371387504373, -17); (1763306316297053, -18);
(1052035845952689, -16); (1894326321527065, -18); (1424166653656900, -16); (2010556629704488, -18);
(1784647514196653, -16); (2114217175592618, -18); (2127589198858749, -16); (2207141797804957, -18);
(2450622274788554, -16); (2290846453223580, -18); (2753249929535957, -16); (2366588574329418, -18);
(3035961777269406, -16); (2435416111636774, -18); (3299745572968218, -16); (2498207136828419, -18);
(3545814616992661, -16); (2555701517785104, -18); (3775455317600242, -16); (2608526182258946, -18);
(3989943047683779, -16); (2657215287010062, -18); (4190497337604562, -16); (2702226368977643, -18);
(4378259868084232, -16); (2743953334055468, -18); (4554285653702798, -16); (2782736954335406, -18);
(4719541760694932, -16); (2818873396984337, -18); (4874910203110806, -16); (2852621192436532, -18);
(5021193021763500, -16); (2884206960364913, -18); (5159118365654818, -16); (2913830143454304, -18);
(5289346889752990, -16); (2941666946802540, -18); (5412478085861132, -16); (2967873641281116, -18);
(5529056351590590, -16); (2992589359741792, -18); (5639576722484762, -16); (3015938493650994, -18);
(5744490272864715, -16); (3038032783280771, -18); (5844209250482745, -16); (3058973186216636, -18);
(5939112061179864, -16); (3078851606347056, -18); (6029548271815797, -16); (3097752568780461, -18);
(6115843860580712, -16); (3115754935792624, -18); (6198307020754208, -16); (3132933775825234, -18);
(6277234924693847, -16); (3149362522988406, -18); (6352921987752219, -16); (3165115600029473, -18);
(6425670346395947, -16); (3180271725033977, -18); (6495803491305275, -16); (3194918182718492, -18);
(6563684284758635, -16); (3209156415539186, -18); (6629738949529550, -16); (3223109375845204, -18);
(6694489043071365, -16); (3236931170179888, -18); (6758593906225592, -16); (3250819601641628, -18);
(6822906541085610, -16); (3265032236292007, -18); (6888546193197504, -16); (3279906508904962, -18);
(6956990815908923, -16); (3295884006098741, -18); (7030191567938097, -16); (3313538195666039, -18);
(7110708644516797, -16); (3333603169205194, -18); (7201861618009667, -16); (3356997989054186, -18);
(7307875953685270, -16); (3384836571738381, -18); (7433987921789071, -16); (3418406731492194, -18);
(7586440923075351, -16); (3459095390889103, -18); (7772269308571649, -16); (9250365544833106, -19);
(1123642957047639, -18); (7125507954787448, -18); (1297191729022396, -18); (3364188485222631, -17);
(1448990578148682, -18); (6811679517715986, -17); (1582279947362813, -18); (1052616326176499, -16);
(1699905063056458, -18); (1425044323407192, -16); (1804264479385807, -18); (1785859728026249, -16);
(1897348784865108, -18); (2129164803933608, -16); (1980802350907045, -18); (2452582966079122, -16);
(2055984495008354, -18); (2755611351402767, -16); (2124022707017878, -18); (3038734422531415, -16);
(2185856628127736, -18); (3302935522984499, -16); (2242273566275012, -18); (3549424157624133, -16);
(2293936902368478, -18); (3779483458160068, -16); (2341408747104221, -18); (3994385963604223, -16);
(2385168029019629, -18); (4195348752453025, -16); (2425624979060079, -18); (4383511386477932, -16);
(2463132778750725, -18); (4559927053277270, -16); (2497996973377256, -18); (4725561248235422, -16);
(2530483119020393, -18); (4881294636884907, -16); (2560823028544199, -18); (5027928098555960, -16);
(2589219901343181, -18); (5166188766435952, -16); (2615852559843530, -18); (5296736371549673, -16);
(2640878968300298, -18); (5420169498193963, -16); (2664439173073012, -18); (5537031542330661, -16);
(2686657775798838, -18); (5647816278134981, -16); (2707646029843779, -18); (5752973009271112, -16);
(2727503634730079, -18); (5852911327970665, -16); (2746320291944519, -18); (5948005537838443, -16);
(2764177077984035, -18); (6038598823048999, -16); (2781147686318178, -18); (6125007272671443, -16);
(2797299589001256, -18); (6207523898606690, -16); (2812695171020565, -18); (6286422822922934, -16);
(2827392896389240, -18); (6361963859104227, -16); (2841448574941446, -18); (6434397776056558, -16);
(2854916813399088, -18); (6503972618317222, -16); (2867852754331386, -18); (6570941566018360, -16);
(2880314232961717, -18); (6635572959395679, -16); (2892364515113282, -18); (6698163290468718, -16);
(2904075820167642, -18); (6759054182903871, -16); (2915533879795195, -18); (6818654639717365, -16);
(2926843832981620, -18); (6877470127613112, -16); (2938137802322835, -18); (6936140357564597, -16);
(2949584518825127, -18); (6995487849121559, -16); (2961401330692262, -18); (7056579402322907, -16);
(2973868789530239, -18); (7120802208967371, -16); (2987347661611534, -18); (7189955103325420, -16);
(3002297518260188, -18); (7266352712733982, -16); (3019294818352010, -18); (7352935018498777, -16);
(3039046378540213, -18); (7453365750657752, -16); (3062391179964571, -18); (7572088751614536, -16);
(3090279763155639, -18); (7714291475982730, -16); (3123717004293759, -18); (7885701646946724, -16);
(8345540180276686, -19); (1013764009388037, -18); (7127645881665573, -18); (1170376416196646, -18);
(3365394644507796, -17); (1307373442880687, -18); (6814514556190448, -17); (1427676957022642, -18);
(1053114143093287, -16); (1533852566639599, -18); (1425797600037836, -16); (1628063138328361, -18);
(1786901034175123, -16); (1712103666468225, -18); (2130519545476170, -16); (1787456941371129, -18);
(2454270534974888, -16); (1855348698944282, -18); (2757646057348834, -16); (1916795617374952, -18);
(3041126250272165, -16); (1972644976800254, -18); (3305690752776119, -16); (2023606687518786, -18);
(3552545878917464, -16); (2070278907560604, -18); (3782971999927905, -16); (2113168475544262, -18);
(3998239259305988, -16); (2152707223367783, -18); (4199562653334393, -16); (2189265039122685, -18);
(4388079933534241, -16); (2223160371923681, -18); (4564842715530542, -16); (2254668720923272, -18);
(4730815132757386, -16); (2284029531207622, -18); (4886876674022503, -16); (2311451825653930, -18);
(5033827203854437, -16); (2337118829323729, -18); (5172392978550550, -16); (2361191787080918, -18);
(5303232962672809, -16); (2383813132113577, -18); (5426945049786824, -16); (2405109129935129, -18);
(5544071973678512, -16); (2425192096951206, -18); (5655106807683926, -16); (2444162273064263, -18);
(5760498017810869, -16); (2462109412745146, -18); (5860654077087350, -16); (2479114147565534, -18);
(5955947674756841, -16); (2495249164658244, -18); (6046719571441241, -16); (2510580239462893, -18);
(6133282164799120, -16); (2525167157099261, -18); (6215922842757839, -16); (2539064554606323, -18);
(6294907215579771, -16); (2552322716028421, -18); (6370482335961646, -16); (2564988353967443, -18);
(6442880040095037, -16); (2577105414898926, -18); (6512320574262512, -16); (2588715951514404, -18);
(6579016713460415, -16); (2599861113932935, -18); (6643178633382018, -16); (2610582323220381, -18);
(6705019867831056, -16); (2620922705689986, -18); (6764764773431096, -16); (2630928885293276, -18);
(6822658035386095, -16); (2640653254172355, -18); (6878976884216645, -16); (2650156867702621, -18);
(6934046853762110, -16); (2659513138546438, -18); (6988262090327137, -16); (2668812530675645, -18);
(7042111407137301, -16); (2678168471535181, -18); (7096211435207562, -16); (2687724694622147, -18);
(7151348288632315, -16); (2697664171457851, -18); (7208529025232651, -16); (2708219651065415, -18);
(7269043646867752, -16); (2719685534125355, -18); (7334537129952923, -16); (2732430278157871, -18);
(7407088522578688, -16); (2746907645451310, -18); (7489289818382320, -16); (2763663754705104, -18);
(7584310317783358, -16); (2783335043530471, -18); (7695921849731747, -16); (2806630086397274, -18);
(7828446706602086, -16); (2834286424739216, -18); (7986575762535248, -16); (7568003719318281, -19);
(9193373558789463, -19); (7129483255703461, -18); (1061389190056637, -18); (3366431715745472, -17);
(1185658720812506, -18); (6816953450862767, -17); (1294794350315917, -18); (1053542656584974, -16);
(1391121645368222, -18); (1426446444034435, -16); (1476601139740284, -18); (1787798638427945, -16);
(1552859914551620, -18); (2131688271751633, -16); (1621242048290884, -18); (2455727658693272, -16);
(1682858604168091, -18); (2759404560655418, -16); (1738631136850422, -18); (3043195464558018, -16);
(1789327643414803, -18); (3308076883028777, -16); (1835591597189766, -18); (3555252435875009, -16);
(1877965170693660, -18); (3786000160301540, -16); (1916907758736738, -18); (4001588169674569, -16);
(1952810766576543, -18); (4203229689645817, -16); (1986009452068925, -18); (4392060925299616, -16);
(2016792448794289, -18); (4569132141578328, -16); (2045409461693157, -18); (4735406293653057, -16);
(2072077518345742, -18); (4891761844801786, -16); (2096986074148179, -18); (5038997769424400, -16);
(2120301203878496, -18); (5177839552843484, -16); (2142169061433792, -18); (5308945491240521, -16);
(2162718750455528, -18); (5432912893815535, -16); (2182064718440740, -18); (5550283971155782, -16);
(2200308763672422, -18); (5661551304354499, -16); (2217541726297687, -18); (5767162856210821, -16);
(2233844920932215, -18); (5867526525797927, -16); (2249291357368938, -18); (5963014271336025, -16);
(2263946787643312, -18); (6053965840290423, -16); (2277870611359356, -18); (6140692154201157, -16);
(2291116666449641, -18); (6223478401763524, -16); (2303733929177061, -18); (6302586899076299, -16);
(2315767145022433, -18); (6378259782215101, -16); (2327257411049353, -18); (6450721605572670, -16);
(2338242730369626, -18); (6520181930839076, -16); (2348758560479908, -18); (6586838007193958, -16);
(2358838379587591, -18); (6650877664469207, -16); (2368514298725632, -18); (6712482569089239, -16);
(2377817752650840, -18); (6771832029067319, -16); (2386780309439892, -18); (6829107580966474, -16);
(2395434647564189, -18); (6884498650357838, -16); (2403815760225585, -18); (6938209649667989, -16);
(2411962459936224, -18); (6990468964641347, -16); (2419919271518965, -18); (7041540382931724, -16);
(2427738818137931, -18); (7091737632918418, -16); (2435484820891955, -18); (7141442820039481, -16);
(2443235844427740, -18); (7191129655073966, -16); (2451089922557623, -18); (7241392431779231, -16);
(2459170177943326, -18); (7292981672564718, -16); (2467631490367586, -18); (7346847122783368, -16);
(2476668140634181, -18); (7404188178940524, -16); (2486522120258960, -18); (7466510642206331, -16);
(2497491395393781, -18); (7535686551625321, -16); (2509936783254573, -18); (7614010329283727, -16);
(2524285190189721, -18); (7704239097236394, -16); (2541025785320841, -18); (7809597539113882, -16);
(2560694413103588, -18); (7933718506147267, -16); (2583840650378180, -18); (8080481691101191, -16);
(6694334606038313, -19); (8132301052210061, -19); (7131535707087396, -18); (9389134630471259, -19);
(3367590696807291, -17); (1048872877008853, -18); (6819680438492585, -17); (1145449798724469, -18);
(1054022066039507, -16); (1230700342275683, -18); (1427172823544694, -16); (1306357911890783, -18);
(1788804222099017, -16); (1373861096813421, -18); (2132998613259399, -16); (1434398265869949, -18);
(2457362721216975, -16); (1488951760223115, -18); (2761379595225904, -16); (1538336359526358, -18);
(3045521719476219, -16); (1583231069003380, -18); (3310762180672609, -16); (1624204791259703, -18);
(3558301646036297, -16); (1661736860472097, -18); (3789415592809941, -16); (1696233421123923, -18);
(4005369903859170, -16); (1728040504318892, -18); (4207375854097784, -16); (1757454499192354, -18);
(4396567938240963, -16); (1784730573761186, -18); (4573994919708219, -16); (1810089479804955, -18);
(4740618435452991, -16); (1833723080526557, -18); (4897315792782505, -16); (1855798864682184, -18);
(5044884954562696, -16); (1876463652712977, -18); (5184050523373731, -16); (1895846655550170, -18);
(5315470026926565, -16); (1914062012192412, -18); (5439740105721099, -16); (1931210905475803, -18);
(5557402385626821, -16); (1947383334819745, -18); (5668948928266588, -16); (1962659608717758, -18);
(5774827218315940, -16); (1977111607276341, -18); (5875444685962498, -16); (1990803855373865, -18);
(5971172785245406, -16); (2003794439402125, -18); (6062350661340985, -16); (2016135794604195, -18);
(6149288446198813, -16); (2027875385387674, -18); (6232270224896007, -16); (2039056297414846, -18);
(6311556716380911, -16); (2049717757561867, -18); (6387387713071162, -16); (2059895595863033, -18);
(6459984324868040, -16); (2069622662222278, -18); (6529551075171532, -16); (2078929209927277, -18);
(6596277899957604, -16); (2087843257818011, -18); (6660342106414446, -16); (2096390943345113, -18);
(6721910355553485, -16); (2104596879732886, -18); (6781140744196829, -16); (2112484532090143, -18);
(6838185076461196, -16); (2120076629662863, -18); (6893191434072465, -16); (2127395634587425, -18);
(6946307179415828, -16); (2134464291583733, -18); (6997682556089891, -16); (2141306288121780, -18);
(7047475089834524, -16); (2147947060772256, -18); (7095855038862377, -16); (2154414790705499, -18);
(7143012197281974, -16); (2160741639474206, -18); (7189164418059094, -16); (2166965284859545, -18);
(7234568290808686, -16); (2173130824735037, -18); (7279532479715103, -16); (2179293122829263, -18);
(7324434288116620, -16); (2185519670818465, -18); (7369740050569291, -16); (2191894031123936, -18);
(7416029929155098, -16); (2198519895768168, -18); (7464027556828451, -16); (2205525735899346, -18);
(7514634645503588, -16); (2213069905688267, -18); (7568970038541067, -16); (2221345878507691, -18);
(7628411564127120, -16); (2230587003169685, -18); (7694637214568848, -16); (2241069745958558, -18);
(7769659387231029, -16); (2253113820886843, -18); (7855841979737009, -16); (2267076946734208, -18);
(7955885073370143, -16); (2283341347108146, -18); (8072756369544127, -16); (2302288836034036, -18);
(8209544135936097, -16); (5959608869219697, -19); (7239930216451945, -19); (7133279984105104, -18);
(8359051841424598, -19); (3368576099913345, -17); (9338233700778646, -19); (6822000216330427, -17);
(1019831142421348, -18); (1054430127732599, -16); (1095758216195270, -18); (1427791507549994, -16);
(1163147152914922, -18); (1789661337538298, -16); (1223278163696114, -18); (2134116378937676, -16);
(1277208785600386, -18); (2458758686973440, -16); (1325813205911649, -18); (2763067382696023, -16);
(1369816492784942, -18); (3047511618662466, -16); (1409822883247175, -18); (3313061633300986, -16);
(1446338629616970, -18); (3560915640558304, -16); (1479790274040400, -18); (3792346990474591, -16);
(1510539225034315, -18); (4008619710852165, -16); (1538893395093506, -18); (4210943451273732, -16);
(1565116520065816, -18); (4400451277298846, -16); (1589435653602577, -18); (4578190692609130, -16);
(1612047223434259, -18); (4745122222302962, -16); (1633121950929719, -18); (4902122192180130, -16);
(1652808868600187, -18); (5049987699443599, -16); (1671238618449212, -18); (5189442584592429, -16);
(1688526174140261, -18); (5321143706133679, -16); (1704773099175760, -18); (5445687118458739, -16);
(1720069429524861, -18); (5563613934916154, -16); (1734495250750528, -18); (5675415768232118, -16);
(1748122025406067, -18); (5781539706502275, -16); (1761013715337100, -18); (5882392821853880, -16);
(1773227734809691, -18); (5978346230971775, -16); (1784815763538346, -18); (6069738738486110, -16);
(1795824443291854, -18); (6156880099806808, -16); (1806295977494385, -18); (6240053941930317, -16);
(1816268649874427, -18); (6319520380671680, -16); (1825777275563891, -18); (6395518371737207, -16);
(1834853595977716, -18); (6468267831733791, -16); (1843526627209035, -18); (6537971564070679, -16);
(1851822970482422, -18); (6604817024077319, -16); (1859767092366030, -18); (6668977957794100, -16);
(1867381581918830, -18); (6730615950017611, -16); (1874687391723729, -18); (6789881919521959, -16);
(1881704069826390, -18); (6846917603173716, -16); (1888449989971118, -18); (6901857076183885, -16);
(1894942588218185, -18); (6954828363313554, -16); (1901198615070921, -18); (7005955205839351, -16);
(1907234413674205, -18); (7055359061912127, -16); (1913066236513566, -18); (7103161434075709, -16);
(1918710615393293, -18); (7149486637645913, -16); (1924184802344570, -18); (7194465147858177, -16);
(1929507302533566, -18); (7238237692546146, -16); (1934698524185406, -18); (7280960290730413, -16);
(1939781574913619, -18); (7322810475484290, -16); (1944783238404899, -18); (7363994980480986, -16);
(1949735169676031, -18); (7404759210790995, -16); (1954675350226750, -18); (7445398854214426, -16);
(1959649844884542, -18); (7486274009877383, -16); (1964714897577384, -18); (7527826199581922, -16);
(1969939389932244, -18); (7570598558183508, -16); (1975407658858821, -18); (7615259331570643, -16);
(1981222619086292, -18); (7662628484770114, -16); (1987509053119538, -18); (7713706654164001, -16);
(1994416800895364, -18); (7769704756416124, -16); (2002123390500117, -18); (7832071162571111, -16);
(2010835389853712, -18); (7902511335384258, -16); (2020787431823991, -18); (7982992156041412, -16);
(2032237508156190, -18); (8075719965967809, -16); (2045456833973120, -18); (8183078136932541, -16);
(2060712530690398, -18); (8307507916355182, -16); (5338928457208802, -19); (6486041055927330, -19);
(7134757145335637, -18); (7488783022520046, -19); (3369410911427631, -17); (8366191792139075, -19);
(6823966328875076, -17); (9136926200367255, -19); (1054776147161770, -16); (9817372289705743, -19);
(1428316413133060, -16); (1042134467481678, -18); (1790388973189992, -16); (1096030851195136, -18);
(2135065916571426, -16); (1144373475917349, -18); (2459945403613866, -16); (1187945232547193, -18);
(2764503284138904, -16); (1227395462237520, -18); (3049205940601908, -16); (1263265290388587, -18);
(3315021246228428, -16); (1296008087702652, -18); (3563145379544189, -16); (1326005836926910, -18);
(3794849926333959, -16); (1353582187798311, -18); (4011397375442878, -16); (1379012879924876, -18);
(4213996026736057, -16); (1402534089465843, -18); (4403777756781442, -16); (1424349141395722, -18);
(4581789018294929, -16); (1444633933714447, -18); (4748989405223802, -16); (1463541343583908, -18);
(4906254417290438, -16); (1481204825549461, -18); (5054380418632013, -16); (1497741365648968, -18);
(5194090599684319, -16); (1513253919449596, -18); (5326041243428160, -16); (1527833434485045, -18);
(5450827895910497, -16); (1541560536285142, -18); (5568991222679660, -16); (1554506940716115, -18);
(5681022442899654, -16); (1566736642551277, -18); (5787368298952323, -16); (1578306920207553, -18);
(5888435558143096, -16); (1589269188760702, -18); (5984595065104622, -16); (1599669727196656, -18);
(6076185375122531, -16); (1609550300992578, -18); (6163516003945891, -16); (1618948697263611, -18);
(6246870331241742, -16); (1627899186642147, -18); (6326508194315294, -16); (1636432923609736, -18);
(6402668207058439, -16); (1644578295050302, -18); (6475569836949800, -16); (1652361225240263, -18);
(6545415270716049, -16); (1659805444262448, -18); (6612391097238539, -16); (1666932725870720, -18);
(6676669834625878, -16); (1673763100099416, -18); (6738411327196651, -16); (1680315045376260, -18);
(6797764037527307, -16); (1686605664538830, -18); (6854866258810527, -16); (1692650848960719, -18);
(6909847273635962, -16); (1698465434958682, -18); (6962828487057689, -16); (1704063356777271, -18);
(7013924564580136, -16); (1709457800739110, -18); (7063244609630222, -16); (1714661365618782, -18);
(7110893420369401, -16); (1719686234962450, -18); (7156972872545727, -16); (1724544367953908, -18);
(7201583483730915, -16); (1729247716543003, -18); (7244826224989144, -16); (1733808477926433, -18);
(7286804659046311, -16); (1738239393121469, -18); (7327627499609472, -16); (1742554104306060, -18);
(7367411704788124, -16); (1746767585796486, -18); (7406286238588718, -16); (1750896665936375, -18);
(7444396657879347, -16); (1754960659646605, -18); (7481910707203003, -16); (1758982133685755, -18);
(7519025128611727, -16); (1762987828362212, -18); (7555973915123057, -16); (1767009759806471, -18);
(7593038249053531, -16); (1771086524820975, -18); (7630558361569231, -16); (1775264824037991, -18);
(7668947513550588, -16); (1779601206067178, -18); (7708708209501843, -16); (1784164011861242, -18);
(7750450585439046, -16); (1789035459753730, -18); (7794912616154927, -16); (1794313751342973, -18);
(7842981311142257, -16); (1800114989664162, -18); (7895713343902400, -16); (1806574577713146, -18);
(7954352514919308, -16); (1813847605191753, -18); (8020340030828954, -16); (1822107542131273, -18);
(8095311799649906, -16); (1831542366827648, -18); (8181074940047334, -16); (1842347120393410, -18);
(8279553875468303, -16); (1854711901010908, -18); (8392695503623823, -16); (4691372119147557, -19);
(5699474625461372, -19); (7136296792849224, -18); (6580754336890405, -19); (3370281338535284, -17);
(7351932064547252, -19); (6826017144205968, -17); (8029397345236971, -19); (1055137237879695, -16);
(8627543786402343, -19); (1428864460309730, -16); (9158506408206921, -19); (1791149115084724, -16);
(9632356479495138, -19); (2136058483079311, -16); (1005741352235223, -18); (2461186723532833, -16);
(1044055462224991, -18); (2766006332016539, -16); (1078748370226813, -18); (3050980855476346, -16);
(1110295406319466, -18); (3317075749743232, -16); (1139094812215725, -18); (3565485115490737, -16);
(1165482118715345, -18); (3797478738863422, -16); (1189741614017051, -18); (4014317539275095, -16);
(1212115499934443, -18); (4217208439626945, -16); (1232811224277848, -18); (4407282102151493, -16);
(1252007377470389, -18); (4585583904118685, -16); (1269858457651580, -18); (4753072483903950, -16);
(1286498741428814, -18); (4910622490186240, -16); (1302045444889013, -18); (5059029528099534, -16);
(1316601318761973, -18); (5199016110853500, -16); (1330256790211312, -18); (5331237917441728, -16);
(1343091739511245, -18); (5456289955944984, -16); (1355176981171679, -18); (5574712413729396, -16);
(1366575504600436, -18); (5686996086005114, -16); (1377343518145096, -18); (5793587340271479, -16);
(1387531331581560, -18); (5894892612975623, -16); (1397184105238413, -18); (5991282456659598, -16);
(1406342488530390, -18); (6083095167442896, -16); (1415043166390284, -18); (6170640027934311, -16);
(1423319328684793, -18); (6254200202131955, -16); (1431201074983781, -18); (6334035318149531, -16);
(1438715764876940, -18); (6410383772701038, -16); (1445888322283529, -18); (6483464788808477, -16);
(1452741500792328, -18); (6553480255553266, -16); (1459296115932730, -18); (6620616376107076, -16);
(1465571249361709, -18); (6685045147893643, -16); (1471584429214883, -18); (6746925696634154, -16);
(1477351790282003, -18); (6806405484266425, -16); (1482888217204235, -18); (6863621409335069, -16);
(1488207473534721, -18); (6918700817451654, -16); (1493322319242184, -18); (6971762438844605, -16);
(1498244619060822, -18); (7022917269886535, -16); (1502985443992799, -18); (7072269415837240, -16);
(1507555168249840, -18); (7119916912919050, -16); (1511963563977790, -18); (7165952549304837, -16);
(1516219896245011, -18); (7210464706718194, -16); (1520333020996940, -18); (7253538247205133, -16);
(1524311488991586, -18); (7295255473336399, -16); (1528163659142506, -18); (7335697194752111, -16);
(1531897825216204, -18); (7374943939689233, -16); (1535522360469415, -18); (7413077357064542, -16);
(1539045885576599, -18); (7450181862940887, -16); (1542477466093639, -18); (7486346594874230, -16);
(1545826846727079, -18); (7521667748753935, -16); (1549104730812699, -18); (7556251385226099, -16);
(1552323114613247, -18); (7590216806350385, -16); (1555495687246740, -18); (7623700617184821, -16);
(1558638308120671, -18); (7656861600411088, -16); (1561769574454004, -18); (7689886543012415, -16);
(1564911491470015, -18); (7722997159327905, -16); (1568090256606748, -18); (7756458249739051, -16);
(1571337165828147, -18); (7790587211550291, -16); (1574689643692269, -18); (7825764967678216, -16);
(1578192387667105, -18); (7862448284470696, -16); (1581898599185298, -18); (7901183291700260, -16);
(1585871246475873, -18); (7942619768635446, -16); (1590184264311382, -18); (7987525387422443, -16);
(1594923540574454, -18); (8036798573342322, -16); (1600187467232215, -18); (8091477920349469, -16);
(1606086745205357, -18); (8152745179862013, -16); (1612743036112452, -18); (8221917759509073, -16);
(1620285966641179, -18); (8300425555166407, -16); (1628847946012576, -18); (8389766067695471, -16);
(1638556304338204, -18); (8491431596995497, -16); (4152983993727092, -19); (5045486166497230, -19);
(7137584516676377, -18); (5825747502812775, -19); (3371009582559231, -17); (6508564339714855, -19);
(6827733616228911, -17); (7108440797559780, -19); (1055439591076286, -16); (7638115008710665, -19);
(1429323580617065, -16); (8108326421179146, -19); (1791786256178479, -16); (8527988118498596, -19);
(2136890926697665, -16); (8904462894848839, -19); (2462228452780043, -16); (9243836974156776, -19);
(2767268570137912, -16); (9551158310881699, -19); (3052472497196298, -16); (9830633537396637, -19);
(3318803708195339, -16); (1008578703487142, -18); (3567454603219721, -16); (1031958817701520, -18);
(3799693497349148, -16); (1053455282818112, -18); (4016780028151404, -16); (1073282437929197, -18);
(4219919994202545, -16); (1091623864253886, -18); (4410243065866673, -16); (1108637603920062, -18);
(4588793741064279, -16); (1124460377322258, -18); (4756529875379346, -16); (1139211008944395, -18);
(4914325418394411, -16); (1152993225032100, -18); (5062975349402129, -16); (1165897950461469, -18);
(5203201620487163, -16); (1178005204347923, -18); (5335659407189512, -16); (1189385672505494, -18);
(5460943265934672, -16); (1200102018320324, -18); (5579592979271204, -16); (1210209980791963, -18);
(5692098980166754, -16); (1219759298541784, -18); (5798907312704116, -16); (1228794490820103, -18);
(5900424125337194, -16); (1237355520454566, -18); (5997019714820298, -16); (1245478358886877, -18);
(6089032150489527, -16); (1253195469650359, -18); (6176770513802826, -16); (1260536223624142, -18);
(6260517789476357, -16); (1267527256990541, -18); (6340533443783142, -16); (1274192780889601, -18);
(6417055723602077, -16); (1280554850208162, -18); (6490303707240170, -16); (1286633597682126, -18);
(6560479135277237, -16); (1292447438469551, -18); (6627768046927827, -16); (1298013249521533, -18);
(6692342244811717, -16); (1303346527400884, -18); (6754360608644642, -16); (1308461527646537, -18);
(6813970276241349, -16); (1313371388331951, -18); (6871307708378881, -16); (1318088240100810, -18);
(6926499652502783, -16); (1322623304669488, -18); (6979664018971263, -16); (1326986983552337, -18);
(7030910682519399, -16); (1331188938584919, -18); (7080342220886105, -16); (1335238165685898, -18);
(7128054602082953, -16); (1339143063206245, -18); (7174137831602817, -16); (1342911496162030, -18);
(7218676570980016, -16); (1346550857633121, -18); (7261750739540748, -16); (1350068128634278, -18);
(7303436111948426, -16); (1353469937828520, -18); (7343804925285762, -16); (1356762622556962, -18);
(7382926510963945, -16); (1359952292807390, -18); (7420867968756576, -16); (1363044899939134, -18);
(7457694902776256, -16); (1366046312228174, -18); (7493472242304510, -16); (1368962399598178, -18);
(7528265174113487, -16); (1371799130263930, -18); (7562140217340938, -16); (1374562682436201, -18);
(7595166477149035, -16); (1377259574721566, -18); (7627417119340626, -16); (1379896819392827, -18);
(7658971114809663, -16); (1382482103293908, -18); (7689915310079312, -16); (1385024001753947, -18);
(7720346888027838, -16); (1387532231477270, -18); (7750376290830836, -16); (1390017948880056, -18);
(7780130684490018, -16); (1392494100651911, -18); (7809758049987551, -16); (1394975833264466, -18);
(7839431988406547, -16); (1397480967482131, -18); (7869357323732872, -16); (1400030542294373, -18);
(7899776573739077, -16); (1402649429581176, -18); (7930977330965135, -16); (1405367015557528, -18);
(7963300544867956, -16); (1408217936717937, -18); (7997149612640727, -16); (1411242845492577, -18);
(8033000057004371, -16); (1414489162825236, -18); (8071409378596117, -16); (1418011750045248, -18);
(8113026400715047, -16); (1421873399672547, -18); (8158599058260445, -16); (1426145003995468, -18);
(8208979110240450, -16); (1430905213100405, -18); (8265121682023010, -16); (1436239345537763, -18);
(8328076907174900, -16); (1442237275146430, -18); (8398970330439564, -16); (1448990003811190, -18);
(8478968323160648, -16); (1456584666833031, -18); (8569224819892680, -16); (3704312646343119, -19);
(4500459652486567, -19); (7138650748115411, -18); (5196512293102546, -19); (3371612727399277, -17);
(5805664280060180, -19); (6829155668533947, -17); (6340849446568049, -19); (1055690170651003, -16);
(6813427081724704, -19); (1429704232383565, -16); (7232974239492588, -19); (1792314731911011, -16);
(7607439326118729, -19); (2137581723047245, -16); (7943388257980795, -19); (2463093367632228, -16);
(8246248539513288, -19); (2768317147355182, -16); (8520521766292996, -19); (3053712382217758, -16);
(8769959255269664, -19); (3320240933589542, -16); (8997703900142133, -19); (3569093819512950, -16);
(9206403645220593, -19); (3801538161111002, -16); (9398302000432457, -19); (4018832556603875, -16);
(9575310308788060, -19); (4222181893493448, -16); (9739065619456522, -19); (4412715038513685, -16);
(9890977229041295, -19); (4591475776827830, -16); (1003226429225417, -18); (4759421328870969, -16);
(1016398637371945, -18); (4917425076000317, -16); (1028706839793818, -18); (5066281487544273, -16);
(1040232113307033, -18); (5206712056814181, -16); (1051045809625145, -18); (5339371545956020, -16);
(1061210957702222, -18); (5464854138565951, -16); (1070783432788909, -18); (5583699280903157, -16);
(1079812935679248, -18); (5696397102784545, -16); (1088343816748556, -18); (5803393375366302, -16);
(1096415772455089, -18); (5905094001856708, -16); (1104064436547561, -18); (6001869059172129, -16);
(1111321883943327, -18); (6094056420120871, -16); (1118217061857135, -18); (6181964990928702, -16);
(1124776160068879, -18); (6265877600346048, -16); (1131022930068676, -18); (6346053575793632, -16);
(1136978961092068, -18); (6422731040006305, -16); (1142663919667303, -18); (6496128959041625, -16);
(1148095758170784, -18); (6566448969707471, -16); (1153290896971796, -18); (6633877011656901, -16);
(1158264384001310, -18); (6698584786727629, -16); (1163030034968892, -18); (6760731065636836, -16);
(1167600556950560, -18); (6820462859911614, -16); (1171987657658222, -18); (6877916474950851, -16);
(1176202142362038, -18); (6933218458373045, -16); (1180254000157654, -18); (6986486456296808, -16);
(1184152481040773, -18); (7037829988914664, -16); (1187906165063826, -18); (7087351155643580, -16);
(1191523024697338, -18); (7135145279256490, -16); (1195010481397003, -18); (7181301497708876, -16);
(1198375457282797, -18); (7225903311867283, -16); (1201624422765785, -18); (7269029097019594, -16);
(1204763440909706, -18); (7310752585900764, -16); (1207798209286642, -18); (7351143331006848, -16);
(1210734100078424, -18); (7390267154202931, -16); (1213576199187821, -18); (7428186592069160, -16);
(1216329345156313, -18); (7464961346090013, -16); (1218998168739366, -18); (7500648747695434, -16);
(1221587134066625, -18); (7535304249333266, -16); (1224100582415115, -18); (7568981954218305, -16);
(1226542779750137, -18); (7601735199195562, -16); (1228917969342930, -18); (7633617207306558, -16);
(1231230430958390, -18); (7664681829190014, -16); (1233484548321435, -18); (7694984395410563, -16);
(1235684886817594, -18); (7724582705209949, -16); (1237836283660978, -18); (7753538181016055, -16);
(1239943953067019, -18); (7781917222296842, -16); (1242013609290138, -18); (7809792796931293, -16);
(1244051610712973, -18); (7837246313034256, -16); (1246065128479356, -18); (7864369818849385, -16);
(1248062343408890, -18); (7891268582478557, -16); (1250052675057249, -18); (7918064106168962, -16);
(1252047046705140, -18); (7944897630608011, -16); (1254058189642781, -18); (7971934181681546, -16);
(1256100989185991, -18); (7999367203284967, -16); (1258192873167162, -18); (8027423802037812, -16);
(1260354240858018, -18); (8056370599049799, -16); (1262608925972372, -18); (8086520134810325, -16);
(1264984681034516, -18); (8118237698928188, -16); (1267513661363494, -18); (8151948348470072, -16);
(1270232874562430, -18); (8188143727609828, -16); (1273184545147458, -18); (8227388097836817, -16);
(1276416323542609, -18); (8270322725064919, -16); (1279981244520295, -18); (8317667447053557, -16);
(1283937313921567, -18); (8370217873957335, -16); (1288346577738765, -18); (8428836291187909, -16);
(1293273510746542, -18); (8494434005718798, -16); (1298782562596834, -18); (8567942719004841, -16);
(1304934730786103, -18); (8650272688993226, -16); (3247324487808653, -19); (3945315229438140, -19);
(7139767532965116, -18); (4555578699667749, -19); (3372244637254624, -17); (5089677216150194, -19);
(6830646000320411, -17); (5558945983563953, -19); (1055952873791690, -16); (5973340508520150, -19);
(1430103457525390, -16); (6341254407194094, -19); (1792869234600663, -16); (6669653938797302, -19);
(2138306885390802, -16); (6964293711881412, -19); (2464001780084456, -16); (7229930587138452, -19);
(2769419073380583, -16); (7470509916283250, -19); (3055016129403092, -16); (7689319468807855, -19);
(3321753151236530, -16); (7889113759410096, -19); (3570819738779806, -16); (8072213501811222, -19);
(3803481790268297, -16); (8240584940970029, -19); (4020996841123463, -16); (8395903192560990, -19);
(4224568848461668, -16); (8539602966613761, -19); (4415325859147346, -16); (8672919359416600, -19);
(4594310931563854, -16); (8796920818161035, -19); (4762480638503880, -16); (8912535918781442, -19);
(4920707781580621, -16); (9020575233992923, -19); (5069786309167420, -16); (9121749286872399, -19);
(5210437244980383, -16); (9216683368023415, -19); (5343314926832955, -16); (9305929826843983, -19);
(5469013154214589, -16); (9389978318087510, -19); (5588071025313237, -16); (9469264384779324, -19);
(5700978354396460, -16); (9544176680744464, -19); (5808180626619678, -16); (9615063075283847, -19);
(5910083486194518, -16); (9682235834936652, -19); (6007056775836025, -16); (9745976039775797, -19);
(6099438156993251, -16); (9806537362012611, -19); (6187536345605122, -16); (9864149311092719, -19);
(6271633999553797, -16); (9919020030614374, -19); (6351990293204530, -16); (9971338717269585, -19);
(6428843212420017, -16); (1002127771980826, -18); (6502411600835498, -16); (1006899436614548, -18);
(6572896985355157, -16); (1011463255869661, -18); (6640485206005014, -16); (1015832417146389, -18);
(6705347872580487, -16); (1020019027701906, -18); (6767643668025705, -16); (1024034222710236, -18);
(6827519516206730, -16); (1027888260690500, -18); (6885111629699746, -16); (1031590608007845, -18);
(6940546451402459, -16); (1035150013900340, -18); (6993941502179868, -16); (1038574577276322, -18);
(7045406145358273, -16); (1041871806352736, -18); (7095042277666803, -16); (1045048672060125, -18);
(7142944955177615, -16); (1048111656019274, -18); (7189202961898697, -16); (1051066793794383, -18);
(7233899327913630, -16); (1053919714044959, -18); (7277111803329067, -16); (1056675674131018, -18);
(7318913293773558, -16); (1059339592671662, -18); (7359372262783432, -16); (1061916079514346, -18);
(7398553106107196, -16); (1064409463539858, -18); (7436516502756216, -16); (1066823818705570, -18);
(7473319747524817, -16); (1069162988716224, -18); (7509017069698120, -16); (1071430610707160, -18);
(7543659942763458, -16); (1073630138329335, -18); (7577297390145481, -16); (1075764864638867, -18);
(7609976292302569, -16); (1077837945216411, -18); (7641741700960905, -16); (1079852421973832, -18);
(7672637166832609, -16); (1081811248148003, -18); (7702705087876981, -16); (1083717315034678, -18);
(7731987086032039, -16); (1085573481080025, -18); (7760524421380459, -16); (1087382604024221, -18);
(7788358453933391, -16); (1089147576881027, -18); (7815531164629429, -16); (1090871368639801, -18);
(7842085748763442, -16); (1092557070691845, -18); (7868067296884163, -16); (1094207950110233, -18);
(7893523580223542, -16); (1095827511049306, -18); (7918505959922322, -16); (1097419565672728, -18);
(7943070441648366, -16); (1098988316160812, -18); (7967278899584393, -16); (1100538449478067, -18);
(7991200496055508, -16); (1102075246684770, -18); (8014913325065773, -16); (1103604708628230, -18);
(8038506309404848, -16); (1105133699816469, -18); (8062081381315597, -16); (1106670112111886, -18);
(8085755975333251, -16); (1108223049519360, -18); (8109665857911905, -16); (1109803034693859, -18);
(8133968310607946, -16); (1111422236740111, -18); (8158845670237690, -16); (1113094718271409, -18);
(8184509208406880, -16); (1114836697350123, -18); (8211203301382262, -16); (1116666816628120, -18);
(8239209796093340, -16); (1118606407495873, -18); (8268852415235039, -16); (1120679731089786, -18);
(8300500959832002, -16); (1122914170403457, -18); (8334574957353697, -16); (1125340338439976, -18);
(8371546264999228, -16); (1127992056534935, -18); (8411939971620041, -16); (1130906145334969, -18);
(8456332754097852, -16); (1134121959793832, -18); (8505347650275864, -16); (1137680591275090, -18);
(8559644039843292, -16); (1141623657948933, -18); (8619901524142233, -16); (1145991613898916, -18);
(8686796434054859, -16); (2875557040695001, -19); (3493682107340224, -19); (7140652840633392, -18);
(4034136512140228, -19); (3372745678580264, -17); (4507156263114678, -19); (6831827979235850, -17);
(4922776751319498, -19); (1056161282055053, -16); (5289812044432154, -19); (1430420271934089, -16);
(5615693465755460, -19); (1793309426893349, -16); (5906588650957148, -19); (2138882776015863, -16);
(6167592500442515, -19); (2464723498787023, -16); (6402916548621664, -19); (2770294926804611, -16);
(6616053847329528, -19); (3056052894425374, -16); (6809915244670573, -19); (3322956309926026, -16);
(6986939459404484, -19); (3572193667731841, -16); (7149181133975426, -19); (3805029914283647, -16);
(7298381072985964, -19); (4022721758944257, -16); (7436022322429452, -19); (4226472436509502, -16);
(7563375079342728, -19); (4417409357850834, -16); (7681532808226864, -19); (4596575017826150, -16);
(7791441427437137, -19); (4764925487070491, -16); (7893923017930954, -19); (4923333117464571, -16);
(7989695184985524, -19); (5072591452826548, -16); (8079386954131118, -19); (5213421151585618, -16);
(8163551890154100, -19); (5346476220690836, -16); (8242678979707145, -19); (5472350159192663, -16);
(8317201703560293, -19); (5591581791948586, -16); (8387505635876626, -19); (5704660684234719, -16);
(8453934839008121, -19); (5812032094226068, -16); (8516797268548300, -19); (5914101459193340, -16);
(8576369361234619, -19); (6011238433265917, -16); (8632899945099273, -19); (6103780506208373, -16);
(8686613584996434, -19); (6192036237904337, -16); (8737713455743161, -19); (6276288144678238, -16);
(8786383818419734, -19); (6356795272806593, -16); (8832792161976796, -19); (6433795492571826, -16);
(8877091061492647, -19); (6507507543610395, -16); (8919419795673447, -19); (6578132859480015, -16);
(8959905759071083, -19); (6645857196542167, -16); (8998665698679513, -19); (6710852089553721, -16);
(9035806799802425, -19); (6773276153852716, -16); (9071427642160033, -19); (6833276251737907, -16);
(9105619043959713, -19); (6890988538586815, -16); (9138464808966333, -19); (6946539402426604, -16);
(9170042389371524, -19); (7000046309052734, -16); (9200423475395102, -19); (7051618563365225, -16);
(9229674520990890, -19); (7101357996343394, -16); (9257857213720340, -19); (7149359585989350, -16);
(9285028895757936, -19); (7195712019621512, -16); (9311242942067709, -19); (7240498204076717, -16);
(9336549101012279, -19); (7283795729669328, -16); (9360993802001778, -19); (7325677293146301, -16);
(9384620434241330, -19); (7366211084358048, -16); (9407469600177421, -19); (7405461140927553, -16);
(9429579346863432, -19); (7443487674837327, -16); (9450985378153066, -19); (7480347374559778, -16);
(9471721250379737, -19); (7516093686126949, -16); (9491818553984218, -19); (7550777076367228, -16);
(9511307083407467, -19); (7584445281427596, -16); (9530214997467334, -19); (7617143543649362, -16);
(9548568972384669, -19); (7648914839873381, -16); (9566394349615138, -19); (7679800104318763, -16);
(9583715280677518, -19); (7709838449309258, -16); (9600554871248025, -19); (7739067387317117, -16);
(9616935326914640, -19); (7767523058059454, -16); (9632878103157287, -19); (7795240464721949, -16);
(9648404062341729, -19); (7822253723804877, -16); (9663533640789765, -19); (7848596333593397, -16);
(9678287029319074, -19); (7874301466854236, -16); (9692684371035443, -19); (7899402294061247, -16);
(9706745980610887, -19); (7923932344258478, -16); (9720492589794330, -19); (7947925911586078, -16);
(9733945624476692, -19); (7971418516523020, -16); (9747127519265526, -19); (7994447432038601, -16);
(9760062076207416, -19); (8017052286081833, -16); (9772774875013603, -19); (8039275753153862, -16);
(9785293742870215, -19); (8061164349067315, -16); (9797649292608988, -19); (8082769344340225, -16);
(9809875538617746, -19); (8104147812911904, -16); (9822010600294816, -19); (8125363833872510, -16);
(9834097502974072, -19); (8146489864477286, -16); (9846185085894264, -19); (8167608302603168, -16);
(9858329025720856, -19); (8188813255629256, -16); (9870592982031829, -19); (8210212529979992, -16);
(9883049867630125, -19); (8231929850588618, -16); (9895783241000432, -19); (8254107311438275, -16);
(9908888810000608, -19); (8276908045991552, -16); (9922476024127977, -19); (8300519088320196, -16);
(9936669716440181, -19); (8325154370399047, -16); (9951611734340783, -19); (8351057766377819, -16);
(9967462469844777, -19); (8378506048585280, -16); (9984402163659223, -19); (8407811560526175, -16);
(1000263181294734, -18); (8439324337673380, -16); (1002237346041166, -18); (8473433317092810, -16);
(1004386958434913, -18); (8510566173745598, -16); (1006738125009853, -18); (8551187210241215, -16);
(1009318463085570, -18); (8595792618934147, -16); (1012156547280817, -18); (8644902349222623, -16);
(1015281108386375, -18); (8699047776816512, -16); (1018719948988823, -18); (8758754423894201, -16);
(2516072353014572, -19); (3056959967091976, -19); (7141513331248321, -18); (3529898095786411, -19);
(3373232773731790, -17); (3943840897337921, -19); (6832977329356830, -17); (4307567414106005, -19);
(1056363991444212, -16); (4628788405472162, -19); (1430728515532258, -16); (4914005032824914, -19);
(1793737852691615, -16); (5168612968898808, -19); (2139443476569179, -16); (5397069428251232, -19);
(2465426458452338, -16); (5603058824394920, -19); (2771148378485354, -16); (5789637011504982, -19);
(3057063604036936, -16); (5959350504603019, -19); (3324129804044311, -16); (6114332776489099, -19);
(3573534416826857, -16); (6256381290223384, -19); (3806541481236008, -16); (6387018947049087, -19);
(4024406920346254, -16); (6507543147370997, -19); (4228333282534617, -16); (6619065080162839, -19);
(4419447375155043, -16); (6722541319677103, -19); (4598791158936434, -16); (6818799359437668, -19);
(4767320228947860, -16); (6908558354114982, -19); (4925906511342484, -16); (6992446058387721, -19);
(5075343166976332, -16); (7071012733743214, -19); (5216350508314642, -16); (7144742625858456, -19);
(5349582228611499, -16); (7214063485450536, -19); (5475631541591855, -16); (7279354505312647, -19);
(5595037011924066, -16); (7340952968696949, -19); (5708287967136168, -16); (7399159843938746, -19);
(5815829447836500, -16); (7454244513185431, -19); (5918066692004921, -16); (7506448786223955, -19);
(6015369171138536, -16); (7555990321360334, -19); (6108074207645846, -16); (7603065552321395, -19);
(6196490208139152, -16); (7647852201872223, -19); (6280899548719071, -16); (7690511448239667, -19);
(6361561147571614, -16); (7731189798710006, -19); (6438712758203572, -16); (7770020715316172, -19);
(6512573014043507, -16); (7807126029873436, -19); (6583343252310160, -16); (7842617179394069, -19);
(6651209142221997, -16); (7876596287823588, -19); (6716342139918672, -16); (7909157115868082, -19);
(6778900789954702, -16); (7940385897245874, -19); (6839031890937339, -16); (7970362076856718, -19);
(6896871540821554, -16); (7999158964005718, -19); (6952546075538913, -16); (8026844311858064, -19);
(7006172913010297, -16); (8053480832662807, -19); (7057861313157792, -16); (8079126656911606, -19);
(7107713063270146, -16); (8103835743445347, -19); (7155823096970855, -16); (8127658246549895, -19);
(7202280054070732, -16); (8150640845261530, -19); (7247166787741906, -16); (8172827039407797, -19);
(7290560824713176, -16); (8194257416320207, -19); (7332534783544617, -16); (8214969891654706, -19);
(7373156755481164, -16); (8234999927330391, -19); (7412490651900622, -16); (8254380729235324, -19);
(7450596521952805, -16); (8273143427041148, -19); (7487530843625872, -16); (8291317238207998, -19);
(7523346791167432, -16); (8308929618041609, -19); (7558094481526250, -16); (8326006397480466, -19);
(7591821202261264, -16); (8342571910138194, -19); (7624571623184618, -16); (8358649110001742, -19);
(7656387993861767, -16); (8374259681086725, -19); (7687310328982383, -16); (8389424140275449, -19);
(7717376583539388, -16); (8404161934509115, -19); (7746622819709052, -16); (8418491533472557, -19);
(7775083367312447, -16); (8432430518896748, -19); (7802790979757885, -16); (8445995671611185, -19);
(7829776987415892, -16); (8459203057504956, -19); (7856071450464104, -16); (8472068113602371, -19);
(7881703313360623, -16); (8484605735526905, -19); (7906700563263103, -16); (8496830367716911, -19);
(7931090394909276, -16); (8508756097868982, -19); (7954899384715712, -16); (8520396757221188, -19);
(7978153677138051, -16); (8531766028449862, -19); (8000879186670883, -16); (8542877563141193, -19);
(8023101819251651, -16); (8553745111013562, -19); (8044847717273021, -16); (8564382663308516, -19);
(8066143532903718, -16); (8574804613037265, -19); (8087016734969329, -16); (8585025935063833, -19);
(8107495955250247, -16); (8595062389322027, -19); (8127611380708978, -16); (8604930750795124, -19);
(8147395198853895, -16); (8614649070224791, -19); (8166882104165335, -16); (8624236969844256, -19);
(8186109874227465, -16); (8633715978728290, -19); (8205120024888089, -16); (8643109912587642, -19);
(8223958554353771, -16); (8652445302964463, -19); (8242676786542088, -16); (8661751880747444, -19);
(8261332324148928, -16); (8671063118639506, -19); (8279990121599971, -16); (8680416836568219, -19);
(8298723687144858, -16); (8689855872887505, -19); (8317616421559534, -16); (8699428822395237, -19);
(8336763097907850, -16); (8709190839453324, -19); (8356271482143981, -16); (8719204500557906, -19);
(8376264087468918, -16); (8729540715222103, -19); (8396880045621392, -16); (8740279666600877, -19);
(8418277064895145, -16); (8751511753462460, -19); (8440633426727417, -16); (8763338492436154, -19);
(8464149949224021, -16); (8775873323529088, -19); (8489051816016571, -16); (8789242242430914, -19);
(8515590131598368, -16); (8803584160127719, -19); (8544043019385164, -16); (8819050864333951, -19);
(8574716026611897, -16); (8835806429514380, -19); (8607941542532526, -16); (8854025895229178, -19);
(8644076876951290, -16); (8873893010135113, -19); (8683500591389794, -16); (8895596827024104, -19);
(8726606635323475, -16); (8919326940631082, -19); (8773795829320804, -16); (8945267194288890, -19);
(8825464274388153, -16); (2223192652822833, -19); (2701145057190040, -19); (7142201961578917, -18);
(3119065510375409, -19); (3373622651253249, -17); (3484864321264339, -19); (6833897467046082, -17);
(3806297364820721, -19); (1056526311462410, -16); (4090176838012951, -19); (1430975404471804, -16);
(4342246342064952, -19); (1794081097583843, -16); (4567272828059632, -19); (2139892833907438, -16);
(4769194148963887, -19); (2465990011834060, -16); (4951265406555741, -19); (2771832823761325, -16);
(5116186382371054, -19); (3057874476558851, -16); (5266206864730374, -19); (3325071660393497, -16);
(5403211724599088, -19); (3574610980955170, -16); (5528788972227103, -19); (3807755762784305, -16);
(5644284045399661, -19); (4025761311147353, -16); (5750843154180597, -19); (4229829635932437, -16);
(5849447992701323, -19); (4421087071714556, -16); (5940943654599883, -19); (4600575161312302, -16);
(6026061192146514, -19); (4769249128064807, -16); (6105435941597527, -19); (4927980565571165, -16);
(6179622488629170, -19); (5077562335628903, -16); (6249106954973403, -19); (5218714480507487, -16);
(6314317138679972, -19); (5352090448328407, -16); (6375630925795459, -19); (5478283229614227, -16);
(6433383302749551, -19); (5597831185164269, -16); (6487872230220317, -19); (5711223455807324, -16);
(6539363586005573, -19); (5818904910810551, -16); (6588095342876049, -19); (5921280630645866, -16);
(6634281114812186, -19); (6018719941845592, -16); (6678113179369536, -19); (6111560033299172, -16);
(6719765063612168, -19); (6200109188606474, -16); (6759393764906060, -19); (6284649670553408, -16);
(6797141664962577, -19); (6365440293006893, -16); (6833138185165486, -19); (6442718713535327, -16);
(6867501222863375, -19); (6516703477465010, -16); (6900338401544602, -19); (6587595841259685, -16);
(6931748162308895, -19); (6655581400283747, -16); (6961820719554190, -19); (6720831543307668, -16);
(6990638900109890, -19); (6783504753604156, -16); (7018278882011304, -19); (6843747774195197, -16);
(7044810846600041, -19); (6901696652750492, -16); (7070299555552817, -19); (6957477679800600, -16);
(7094804862707378, -19); (7011208232299629, -16); (7118382169105868, -19); (7062997533135355, -16);
(7141082828461975, -19); (7112947335920807, -16); (7162954509237486, -19); (7161152543292093, -16);
(7184041518653100, -19); (7207701765965301, -16); (7204385093230375, -19); (7252677828954485, -16);
(7224023659844375, -19); (7296158230608452, -16); (7242993070741803, -19); (7338215559473337, -16);
(7261326815532289, -19); (7378917873419190, -16); (7279056212778734, -19); (7418329044971879, -16);
(7296210583486120, -19); (7456509076357754, -16); (7312817408508591, -19); (7493514387389932, -16);
(7328902471654914, -19); (7529398078995253, -16); (7344489990066897, -19); (7564210174894084, -16);
(7359602733269230, -19); (7597997843696403, -16); (7374262132138434, -19); (7630805603462782, -16);
(7388488378909974, -19); (7662675510594492, -16); (7402300519233290, -19); (7693647334760027, -16);
(7415716537192339, -19); (7723758721433454, -16); (7428753434132293, -19); (7753045343511121, -16);
(7441427302069922, -19); (7781541043385911, -16); (7453753392414597, -19); (7809277966791060, -16);
(7465746180687906, -19); (7836286689677923, -16); (7477419427901918, -19); (7862596339363163, -16);
(7488786239238555, -19); (7888234711170709, -16); (7499859120665148, -19); (7913228381802210, -16);
(7510650034123837, -19); (7937602820697135, -16); (7521170451945067, -19); (7961382500690559, -16);
(7531431411158165, -19); (7984591009343806, -16); (7541443568405107, -19); (8007251162411515, -16);
(7551217256207493, -19); (8029385121019574, -16); (7560762541391865, -19); (8051014514262963, -16);
(7570089286545360, -19); (8072160569092491, -16); (7579207215452834, -19); (8092844249546161, -16);
(7588125983558522, -19); (8113086407595959, -16); (7596855254600513, -19); (8132907948125792, -16);
(7605404784685073, -19); (8152330010832001, -16); (7613784515200193, -19); (8171374172145180, -16);
(7622004676113267, -19); (8190062670610542, -16); (7630075901355534, -19); (8208418659532486, -16);
(7638009358163845, -19); (8226466491084072, -16); (7645816892425407, -19); (8244232036498043, -16);
(7653511192248359, -19); (8261743047383627, -16); (7661105972153171, -19); (8279029563638637, -16);
(7668616180436525, -19); (8296124373828724, -16); (7676058232385866, -19); (8313063534256175, -16);
(7683450272099249, -19); (8329886953198786, -16); (7690812465664271, -19); (8346639046910128, -16);
(7698167328335732, -19); (8363369473861753, -16); (7705540088076615, -19); (8380133953277569, -16);
(7712959087329680, -19); (8396995173132502, -16); (7720456224088709, -19); (8414023791296488, -16);
(7728067432140554, -19); (8431299531191393, -16); (7735833198629735, -19); (8448912369930949, -16);
(7743799114709090, -19); (8466963812112370, -16); (7752016451809944, -19); (8485568235840266, -16);
(7760542751796868, -19); (8504854288745331, -16); (7769442413753351, -19); (8524966300217779, -16);
(7778787253163293, -19); (8546065661289764, -16); (7788657000623884, -19); (8568332105076614, -16);
(7799139696833306, -19); (8591964798032911, -16); (7810331928461635, -19); (8617183125335791, -16);
(7822338835880836, -19); (8644227022726899, -16); (7835273809189877, -19); (8673356673041829, -16);
(7849257774604757, -19); (8704851350330805, -16); (7864417960824488, -19); (8739007161188697, -16);
(7880886026971684, -19); (8776133406687649, -16); (7898795433580249, -19); (8816547276255949, -16);
(7918277950171212, -19); (8860566596308294, -16); (7939459222137213, -19); (8908500402679119, -16);
(1944104808172863, -19); (2362079689279158, -19); (7142870645995927, -18); (2727565493010114, -19);
(3374001298187475, -17); (3047478195749429, -19); (6834791269705135, -17); (3328598979745383, -19);
(1056684019862271, -16); (3576884028469226, -19); (1431215337265024, -16); (3797355245930193, -19);
(1794414760981541, -16); (3994180621642384, -19); (2140329776183974, -16); (4170803229573239, -19);
(2466538170423533, -16); (4330069180398755, -19); (2772498801896881, -16); (4474339038008580, -19);
(3058663763636773, -16); (4605579911155484, -19); (3325988808094674, -16); (4725439839337465, -19);
(3575659744772789, -16); (4835307298323497, -19); (3808939216502081, -16); (4936358667461324, -19);
(4027081940104168, -16); (5029596128586884, -19); (4231289413573305, -16); (5115878016710237, -19);
(4422687522901076, -16); (5195943228286058, -19); (4602317415082190, -16); (5270430946153614, -19);
(4771133961932997, -16); (5339896662637906, -19); (4930008443009192, -16); (5404825264865527, -19);
(5079733438010129, -16); (5465641777837335, -19); (5221028734536996, -16); (5522720230787040, -19);
(5354547549768437, -16); (5576391012124826, -19); (5480882663954187, -16); (5626947000884556, -19);
(5600572245757691, -16); (5674648702683609, -19); (5714105259898375, -16); (5719728571649507, -19);
(5821926413793687, -16); (5762394663436609, -19); (5924440638839293, -16); (5802833735974854, -19);
(6022017124008726, -16); (5841213892159104, -19); (6114992931083616, -16); (5877686840933180, -19);
(6203676226097062, -16); (5912389839103901, -19); (6288349163028890, -16); (5945447364939478, -19);
(6369270455027728, -16); (5976972565551031, -19); (6446677666447656, -16); (6007068512753596, -19);
(6520789256394533, -16); (6035829296188047, -19); (6591806401656133, -16); (6063340977673600, -19);
(6659914624065441, -16); (6089682426829690, -19); (6725285244645835, -16); (6114926054781716, -19);
(6788076684377859, -16); (6139138460109964, -19); (6848435629139552, -16); (6162380999006194, -19);
(6906498074313085, -16); (6184710289781289, -19); (6962390262713238, -16); (6206178660351128, -19);
(7016229527864589, -16); (6226834546060953, -19); (7068125053216800, -16); (6246722844146502, -19);
(7118178556622645, -16); (6265885230237052, -19); (7166484908292960, -16); (6284360441552101, -19);
(7213132689469173, -16); (6302184530805945, -19); (7258204698201126, -16); (6319391094293539, -19);
(7301778407871102, -16); (6336011477170803, -19); (7343926383451021, -16); (6352074958549976, -19);
(7384716659907177, -16); (6367608918694911, -19); (7424213086665331, -16); (6382638990313429, -19);
(7462475641609494, -16); (6397189195696667, -19); (7499560717702578, -16); (6411282071242605, -19);
(7535521384979339, -16); (6424938780717482, -19); (7570407630365846, -16); (6438179218450410, -19);
(7604266577520003, -16); (6451022103519516, -19); (7637142688659893, -16); (6463485065869407, -19);
(7669077950147200, -16); (6475584725197199, -19); (7700112043418378, -16); (6487336763355520, -19);
(7730282502703713, -16); (6498755990944187, -19); (7759624860841656, -16); (6509856408696007, -19);
(7788172784380622, -16); (6520651264205267, -19); (7815958199061201, -16); (6531153104498718, -19);
(7843011406686931, -16); (6541373824907589, -19); (7869361194320170, -16); (6551324714664429, -19);
(7895034936680300, -16); (6561016499619955, -19); (7920058692573547, -16); (6570459382452019, -19);
(7944457296146663, -16); (6579663080720945, -19); (7968254443729997, -16); (6588636863112547, -19);
(7991472777018847, -16); (6597389584201900, -19); (8014133963335314, -16); (6605929718067311, -19);
(8036258773716017, -16); (6614265391084759, -19); (8057867159584249, -16); (6622404414238483, -19);
(8078978328788472, -16); (6630354315293254, -19); (8099610821822974, -16); (6638122371188470, -19);
(8119782589091303, -16); (6645715641033481, -19); (8139511070129370, -16); (6653141000107842, -19);
(8158813275773382, -16); (6660405175299570, -19); (8177705874338766, -16); (6667514782449204, -19);
(8196205282970527, -16); (6674476366107756, -19); (8214327765433879, -16); (6681296442262653, -19);
(8232089537737035, -16); (6687981544637654, -19); (8249506883116352, -16); (6694538275230569, -19);
(8266596278067956, -16); (6700973359816298, -19); (8283374531279623, -16); (6707293709212047, -19);
(8299858937501699, -16); (6713506487175973, -19); (8316067448595304, -16); (6719619185889133, -19);
(8332018864208099, -16); (6725639710052013, -19); (8347733044749573, -16); (6731576470708964, -19);
(8363231149564427, -16); (6737438489993667, -19); (8378535903427503, -16); (6743235518061943, -19);
(8393671894697208, -16); (6748978163539151, -19); (8408665908653167, -16); (6754678038850311, -19);
(8423547299689948, -16); (6760347921811532, -19); (8438348406117731, -16); (6766001934827970, -19);
(8453105011300979, -16); (6771655742948708, -19); (8467856854705638, -16); (6777326771850360, -19);
(8482648196070496, -16); (6783034446530447, -19); (8497528435300649, -16); (6788800451053436, -19);
(8512552789714525, -16); (6794649009063182, -19); (8527783028853924, -16); (6800607183903050, -19);
(8543288265058851, -16); (6806705196006733, -19); (8559145795259218, -16); (6812976753667025, -19);
(8575441985760543, -16); (6819459391275817, -19); (8592273186991227, -16); (6826194806570309, -19);
(8609746659004745, -16); (6833229185231614, -19); (8627981480750792, -16); (6840613497285638, -19);
(8647109406514445, -16); (6848403745099397, -19); (8667275621282101, -16); (6856661137341258, -19);
(8688639333027147, -16); (6865452157148281, -19); (8711374124074637, -16); (6874848486099405, -19);
(8735667966111717, -16); (6884926738773655, -19); (8761722784739423, -16); (6895767956239815, -19);
(8789753440908044, -16); (6907456801615706, -19); (8819985980014631, -16); (6920080398012621, -19);
(8852654987569412, -16); (6933726750250028, -19); (8887999886800295, -16); (6948482698509175, -19);
(8926260022952612, -16); (6964431366613300, -19); (8967668406721245, -16); (1687522084062742, -19);
(2050350430521891, -19); (7143489225104815, -18); (2367622652786059, -19); (3374351625166600, -17);
(2645340906026387, -19); (6835618366232366, -17); (2889390544558335, -19); (1056829987008023, -16);
(3104940979691790, -19); (1431437456375445, -16); (3296350786177901, -19); (1794723727318731, -16);
(3467237429868135, -19); (2140734485464243, -16); (3620589217153205, -19); (2467046039766637, -16);
(3758876341573480, -19); (2773116025546536, -16); (3884147581578293, -19); (3059395516583021, -16);
(3998110227339366, -19); (3326839408735750, -16); (4102194641152033, -19); (3576632785546656, -16);
(4197605903284232, -19); (3810037669469621, -16); (4285365009823915, -19); (4028308242884812, -16);
(4366341766023805, -19); (4232645539797606, -16); (4441281128435874, -19); (4424175040394658, -16);
(4510824389517647, -19); (4603937534270471, -16); (4575526297479205, -19); (4772887576403662, -16);
(4635868963219365, -19); (4931896163747717, -16); (4692273217485011, -19); (5081755622500646, -16);
(4745107935135632, -19); (5223185511672184, -16); (4794697730555439, -19); (5356838841319745, -16);
(4841329341264508, -19); (5483308203204026, -16); (4885256949620448, -19); (5603131593778051, -16);
(4926706640505523, -19); (5716797819868060, -16); (4965880152488166, -19); (5824751443673352, -16);
(5002958048415423, -19); (5927397262665235, -16); (5038102406673260, -19); (6025104342019820, -16);
(5071459114881099, -19); (6118209628858234, -16); (5103159832377398, -19); (6207021182846412, -16);
(5133323675598979, -19); (6291821059168485, -16); (5162058670665758, -19); (6372867879128392, -16);
(5189463009622880, -19); (6450399121650791, -16); (5215626140454308, -19); (6524633166362534, -16);
(5240629715848113, -19); (6595771116117261, -16); (5264548421517410, -19); (6663998424002746, -16);
(5287450701469129, -19); (6729486347171443, -16); (5309399394814304, -19); (6792393247326799, -16);
(5330452296408964, -19); (6852865755411093, -16); (5350662651709710, -19); (6911039815981985, -16);
(5370079594647384, -19); (6967041624928251, -16); (5388748536006167, -19); (7020988472546843, -16);
(5406711508695714, -19); (7072989502566063, -16); (5424007475382063, -19); (7123146396434907, -16);
(5440672603167729, -19); (7171553991088069, -16); (5456740509357201, -19); (7218300837422168, -16);
(5472242481790601, -19); (7263469705865458, -16); (5487207676758462, -19); (7307138044675716, -16);
(5501663297110800, -19); (7349378395946277, -16); (5515634752832511, -19); (7390258773726449, -16);
(5529145806065207, -19); (7429843008159668, -16); (5542218702305272, -19); (7468191059101640, -16);
(5554874289292619, -19); (7505359302293567, -16); (5567132124919160, -19); (7541400790825443, -16);
(5579010575325747, -19); (7576365494325465, -16); (5590526904217706, -19); (7610300518048510, -16);
(5601697354308826, -19); (7643250303805051, -16); (5612537221699207, -19); (7675256814467769, -16);
(5623060923901496, -19); (7706359703613220, -16); (5633282062150818, -19); (7736596471697186, -16);
(5643213478564601, -19); (7766002610022336, -16); (5652867308658178, -19); (7794611733633313, -16);
(5662255029669265, -19); (7822455704165419, -16); (5671387505098367, -19); (7849564743577130, -16);
(5680275025831865, -19); (7875967539612229, -16); (5688927348179374, -19); (7901691343763252, -16);
(5697353729126355, -19); (7926762062443136, -16); (5705562959076292, -19); (7951204342015494, -16);
(5713563392333756, -19); (7975041648285145, -16); (5721362975559819, -19); (7998296341008703, -16);
(5728969274414421, -19); (8020989743949635, -16); (5736389498586027, -19); (8043142210972835, -16);
(5743630525397174, -19); (8064773188650033, -16); (5750698922165000, -19); (8085901275829018, -16);
(5757600967488519, -19); (8106544280606480, -16); (5764342671629149, -19); (8126719275136132, -16);
(5770929796147660, -19); (8146442648700572, -16); (5777367872959363, -19); (8165730159477090, -16);
(5783662222969873, -19); (8184596985434300, -16); (5789817974456180, -19); (8203057774808211, -16);
(5795840081362118, -19); (8221126696623233, -16); (5801733341683536, -19); (8238817491745800, -16);
(5807502416126773, -19); (8256143524986065, -16); (5813151847234263, -19); (8273117838796568, -16);
(5818686079183535, -19); (8289753209156332, -16); (5824109478480398, -19); (8306062204274619, -16);
(5829426355783928, -19); (8322057246800982, -16); (5834640989120021, -19); (8337750680287443, -16);
(5839757648761716, -19); (8353154840714917, -16); (5844780624078450, -19); (8368282133969516, -16);
(5849714252682631, -19); (8383145120235179, -16); (5854562952230521, -19); (8397756606357110, -16);
(5859331255265216, -19); (8412129747325485, -16); (5864023847522156, -19); (8426278158130220, -16);
(5868645610151844, -19); (8440216037344282, -16); (5873201666349592, -19); (8453958303903652, -16);
(5877697432917324, -19); (8467520748664289, -16); (5882138677316644, -19); (8480920202427393, -16);
(5886531580803781, -19); (8494174722229419, -16); (5890882808263732, -19); (8507303797787185, -16);
(5895199585379871, -19); (8520328580063178, -16); (5899489783783064, -19); (8533272133961881, -16);
(5903762014816018, -19); (8546159717171726, -16); (5908025732518324, -19); (8559019087112308, -16);
(5912291346377758, -19); (8571880837811911, -16); (5916570344294526, -19); (8584778768299521, -16);
(5920875426055483, -19); (8597750283715609, -16); (5925220647400795, -19); (8610836829786467, -16);
(5929621574468788, -19); (8624084360518852, -16); (5934095448005555, -19); (8637543837896255, -16);
(5938661356200435, -19); (8651271760926207, -16); (5943340414329835, -19); (8665330719519609, -16);
(5948155948529893, -19); (8679789966288171, -16); (5953133679941353, -19); (8694725996326263, -16);
(5958301904145430, -19); (8710223121296252, -16); (5963691659207649, -19); (8726374019561603, -16);
(5969336873744813, -19); (8743280238622816, -16); (5975274484218217, -19); (8761052619650037, -16);
(5981544508145503, -19); (8779811606467382, -16); (5988190057157910, -19); (8799687393004150, -16);
(5995257270899495, -19); (8820819854186045, -16); (6002795149823573, -19); (8843358195863941, -16);
(6010855262223838, -19); (8867460250263935, -16); (6019491298677465, -19); (8893291335470804, -16);
(6028758445922773, -19); (8921022591848045, -16); (6038712552612013, -19); (8950828706648276, -16);
(6049409062046725, -19); (8982884942350033, -16); (6060901692668508, -19); (9017363396754307, -16);
(1481251565099711, -19); (1799742621307956, -19); (7143974934319647, -18); (2078249765617697, -19);
(3374626735466673, -17); (2322040770469374, -19); (6836267972058510, -17); (2536281024389343, -19);
(1056944648470500, -16); (2725507603509361, -19); (1431611968300346, -16); (2893545952483257, -19);
(1794966519846322, -16); (3043571067937865, -19); (2141052583069300, -16); (3178205747305427, -19);
(2467445313185863, -16); (3299618049127232, -19); (2773601392459256, -16); (3409606161517330, -19);
(3059971101361032, -16); (3509668551995601, -19); (3327508670011682, -16); (3601060630945735, -19);
(3577398618615326, -16); (3684840080409944, -19); (3810902489006329, -16); (3761903012944965, -19);
(4029274050222500, -16); (3833012841788339, -19); (4233713978033811, -16); (3898823401138323, -19);
(4425347439853034, -16); (3959897539743794, -19); (4605214950272289, -16); (4016722146902933, -19);
(4774270820870889, -16); (4069720358522181, -19); (4933385831828130, -16); (4119261525257769, -19);
(5083352115151812, -16); (4165669396400193, -19); (5224889054945915, -16); (4209228874124991, -19);
(5358649502937634, -16); (4250191616382618, -19); (5485225906897057, -16); (4288780707755034, -19);
(5605156131771370, -16); (4325194571969843, -19); (5718928863819531, -16); (4359610264298928, -19);
(5826988554317172, -16); (4392186254392934, -19); (5929739898366225, -16); (4423064788406665, -19);
(6027551866407443, -16); (4452373902181403, -19); (6120761317679944, -16); (4480229143725210, -19);
(6209676230156103, -16); (4506735052476993, -19); (6294578582946426, -16); (4531986434246486, -19);
(6375726926413187, -16); (4556069463824008, -19); (6453358673250855, -16); (4579062641690959, -19);
(6527692141203824, -16); (4601037626756183, -19); (6598928375275065, -16); (4622059963377751, -19);
(6667252774457851, -16); (4642189717935211, -19); (6732836545324753, -16); (4661482037761131, -19);
(6795838002301146, -16); (4679987643218002, -19); (6856403732164480, -16); (4697753262034514, -19);
(6914669638252581, -16); (4714822013627870, -19); (6970761878028088, -16); (4731233749983658, -19);
(7024797706018147, -16); (4747025358699538, -19); (7076886232711463, -16); (4762231032989864, -19);
(7127129108730295, -16); (4776882512767774, -19); (7175621142484538, -16); (4791009300347118, -19);
(7222450858541227, -16); (4804638853820701, -19); (7267701003089459, -16); (4817796760758937, -19);
(7311449002133155, -16); (4830506894522046, -19); (7353767377389203, -16); (4842791555179398, -19);
(7394724124294618, -16); (4854671596773276, -19); (7434383056023196, -16); (4866166542444491, -19);
(7472804116970708, -16); (4877294688748149, -19); (7510043668780048, -16); (4888073200324911, -19);
(7546154751637144, -16); (4898518195952196, -19); (7581187323268813, -16); (4908644826877864, -19);
(7615188477809879, -16); (4918467348233061, -19); (7648202646474365, -16); (4927999184228891, -19);
(7680271781760355, -16); (4937252987761405, -19); (7711435526736958, -16); (4946240694979417, -19);
(7741731370801548, -16); (4954973575308488, -19); (7771194793153748, -16); (4963462277370809, -19);
(7799859395107068, -16); (4971716871193750, -19); (7827757022247849, -16); (4979746887058557, -19);
(7854917877352522, -16); (4987561351304407, -19); (7881370624886681, -16); (4995168819371097, -19);
(7907142487831792, -16); (5002577406335545, -19); (7932259337516524, -16); (5009794815172498, -19);
(7956745777068556, -16); (5016828362948059, -19); (7980625219048639, -16); (5023685005135441, -19);
(8003919957780823, -16); (5030371358225455, -19); (8026651236850512, -16); (5036893720789472, -19);
(8048839312204863, -16); (5043258093139596, -19); (8070503511257529, -16); (5049470195719527, -19);
(8091662288371395, -16); (5055535486349787, -19); (8112333277068590, -16); (5061459176442604, -19);
(8132533339296184, -16); (5067246246294598, -19); (8152278612058557, -16); (5072901459559465, -19);
(8171584551713140, -16); (5078429376997978, -19); (8190465976214947, -16); (5083834369598832, -19);
(8208937105586977, -16); (5089120631160979, -19); (8227011600888023, -16); (5094292190426258, -19);
(8244702601946616, -16); (5099352922850141, -19); (8262022764129838, -16); (5104306562098391, -19);
(8278984294418413, -16); (5109156711358289, -19); (8295598987064962, -16); (5113906854554846, -19);
(8311878259120602, -16); (5118560367565149, -19); (8327833186126263, -16); (5123120529527563, -19);
(8343474538279233, -16); (5127590534347159, -19); (8358812817402723, -16); (5131973502504269, -19);
(8373858295066677, -16); (5136272493279681, -19); (8388621052231878, -16); (5140490517517615, -19);
(8403111020816669, -16); (5144630551056335, -19); (8417338027616508, -16); (5148695548966082, -19);
(8431311841041218, -16); (5152688460744951, -19); (8445042221173288, -16); (5156612246635426, -19);
(8458538973693004, -16); (5160469895237514, -19); (8471812008262565, -16); (5164264442608728, -19);
(8484871402011642, -16); (5167998993056541, -19); (8497727468820885, -16); (5171676741845232, -19);
(8510390835157447, -16); (5175301000056107, -19); (8522872523277160, -16); (5178875221857676, -19);
(8535184042670900, -16); (5182403034460151, -19); (8547337490696901, -16); (5185888271046153, -19);
(8559345663404898, -16); (5189335006986103, -19); (8571222177620127, -16); (5192747599661662, -19);
(8582981605412726, -16); (5196130732232652, -19); (8594639622127785, -16); (5199489461690734, -19);
(8606213169188581, -16); (5202829271545004, -19); (8617720632905069, -16); (5206156129478311, -19);
(8629182040514101, -16); (5209476550295670, -19); (8640619274638366, -16); (5212797664454193, -19);
(8652056307266341, -16); (5216127292413131, -19); (8663519454211874, -16); (5219474024967696, -19);
(8675037650792340, -16); (5222847309624981, -19); (8686642749148173, -16); (5226257542936992, -19);
(8698369837189167, -16); (5229716168515654, -19); (8710257578565097, -16); (5233235780207398, -19);
(8722348572285707, -16); (5236830229588920, -19); (8734689729618574, -16); (5240514736547882, -19);
(8747332664628638, -16); (5244306001218837, -19); (8760334093141518, -16); (5248222314940908, -19);
(8773756232962860, -16); (5252283667175941, -19); (8787667195815746, -16); (5256511844461572, -19);
(8802141358619505, -16); (5260930516464654, -19); (8817259698386895, -16); (5265565303044835, -19);
(8833110071141399, -16); (5270443814944088, -19); (8849787410860012, -16); (5275595659308863, -19);
(8867393819581020, -16); (5281052399771031, -19); (8886038514594998, -16); (5286847459332971, -19);
(8905837593259870, -16); (5293015952926587, -19); (8926913570756628, -16); (5299594435392922, -19);
(8949394641477838, -16); (5306620549953031, -19); (8973413611324083, -16); (5314132562256762, -19);
(8999106446760794, -16); (5322168766096216, -19); (9026610388027025, -16); (5330766749183085, -19);
(9056061579514983, -16); (5339962511354281, -19); (9087592181279729, -16); (1291672658807919, -19);
(1569411415132314, -19); (7144429374444041, -18); (1812286696375032, -19); (3374884163870904, -17);
(2024891487895646, -19); (6836875906346668, -17); (2211729609091939, -19); (1057051970576302, -16);
(2376757078934563, -19); (1431775337300160, -16); (2523309440420044, -19); (1795193851821314, -16);
(2654155096114621, -19); (2141350485529856, -16); (2771580968905830, -19); (2467819320733997, -16);
(2877477478365611, -19); (2774056154477370, -16); (2973412539386665, -19); (3060510531385813, -16);
(3060692727883761, -19); (3328136064982617, -16); (3140412687616450, -19); (3578116754563008, -16);
(3213494654089220, -19); (3811713698313008, -16); (3280719982928522, -19); (4030180284424702, -16);
(3342754323013638, -19); (4234716859228214, -16); (3400167776073826, -19); (4426448303068433, -16);
(3453451109288780, -19); (4606414878637722, -16); (3503028857160415, -19); (4775570675004032, -16);
(3549269964559184, -19); (4934786274558236, -16); (3592496478431822, -19); (5084853632454121, -16);
(3632990683734921, -19); (5226491973781846, -16); (3671000992804959, -19); (5360354006553708, -16);
(3706746830802694, -19); (5487032048025572, -16); (3740422708473267, -19); (5607063844089743, -16);
(3772201633670793, -19); (5720937971957492, -16); (3802237982173855, -19); (5829098782647340, -16);
(3830669924186714, -19); (5931950878770883, -16); (3857621484003172, -19); (6029863145180096, -16);
(3883204295409269, -19); (6123172361692740, -16); (3907519103608007, -19); (6212186432401899, -16);
(3930657055071256, -19); (6297187267546153, -16); (3952700809230814, -19); (6378433353164356, -16);
(3973725499905643, -19); (6456162041780895, -16); (3993799569511753, -19); (6530591594781886, -16);
(4012985495172340, -19); (6601923004327613, -16); (4031340422649590, -19); (6670341619826434, -16);
(4048916721408514, -19); (6736018601298540, -16); (4065762471981460, -19); (6799112219451941, -16);
(4081921895038212, -19); (6859769020007800, -16); (4097435730108617, -19); (6918124867754874, -16);
(4112341570695012, -19); (6974305883977158, -16); (4126674161504436, -19); (7028429289271262, -16);
(4140465662688992, -19); (7080604162333366, -16); (4153745885277149, -19); (7130932124031323, -16);
(4166542501385347, -19); (7179507954967295, -16); (4178881232298605, -19); (7226420153762622, -16);
(4190786017085115, -19); (7271751442443414, -16); (4202279164050269, -19); (7315579224557873, -16);
(4213381487029441, -19); (7357976001001488, -16); (4224112428257702, -19); (7399009747952365, -16);
(4234490169331078, -19); (7438744260815747, -16); (4244531731582231, -19); (7477239467635279, -16);
(4254253067028491, -19); (7514551715040853, -16); (4263669140908001, -19); (7550734029462083, -16);
(4272794006696848, -19); (7585836356036648, -16); (4281640874393643, -19); (7619905777378661, -16);
(4290222172765655, -19); (7652986714139369, -16); (4298549606170237, -19); (7685121109086968, -16);
(4306634206495281, -19); (7716348596250679, -16); (4314486380701255, -19); (7746706656513523, -16);
(4322115954393903, -19); (7776230760895890, -16); (4329532211809737, -19); (7804954502645794, -16);
(4336743932555310, -19); (7832909719139642, -16); (4343759425404994, -19); (7860126604497781, -16);
(4350586559430094, -19); (7886633813730524, -16); (4357232792703970, -19); (7912458559151491, -16);
(4363705198802944, -19); (7937626699724827, -16); (4370010491300795, -19); (7962162823950203, -16);
(4376155046435118, -19); (7986090326833559, -16); (4382144924106579, -19); (8009431481441662, -16);
(4387985887356742, -19); (8032207505493939, -16); (4393683420456565, -19); (8054438623405243, -16);
(4399242745725549, -19); (8076144124157677, -16); (4404668839190812, -19); (8097342415347859, -16);
(4409966445185832, -19); (8118051073727768, -16); (4415140089980146, -19); (8138286892532131, -16);
(4420194094523807, -19); (8158065925862987, -16); (4425132586383796, -19); (8177403530382282, -16);
(4429959510943727, -19); (8196314404545940, -16); (4434678641933102, -19); (8214812625597571, -16);
(4439293591347870, -19); (8232911684526717, -16); (4443807818820194, -19); (8250624519185151, -16);
(4448224640492010, -19); (8267963545745015, -16); (4452547237444166, -19); (8284940688674631, -16);
(4456778663730607, -19); (8301567409401316, -16); (4460921854065215, -19); (8317854733825585, -16);
(4464979631207512, -19); (8333813278847675, -16); (4468954713092401, -19); (8349453278065194, -16);
(4472849719748584, -19); (8364784606800110, -16); (4476667180050050, -19); (8379816806613994, -16);
(4480409538345297, -19); (8394559109472592, -16); (4484079161009533, -19); (8409020461724398, -16);
(4487678342966111, -19); (8423209548062871, -16); (4491209314224874, -19); (8437134815648469, -16);
(4494674246486925, -19); (8450804498574688, -16); (4498075259867541, -19); (8464226642871850, -16);
(4501414429791688, -19); (8477409132253626, -16); (4504693794119635, -19); (8490359714824147, -16);
(4507915360563808, -19); (8503086030978187, -16); (4511081114462013, -19); (8515595642743328, -16);
(4514193026976681, -19); (8527896064831288, -16); (4517253063794774, -19); (8539994797685749, -16);
(4520263194408489, -19); (8551899362836138, -16); (4523225402062811, -19); (8563617340890786, -16);
(4526141694462433, -19); (8575156412528867, -16); (4529014115337412, -19); (8586524402878235, -16);
(4531844756974208, -19); (8597729329695807, -16); (4534635773826384, -19); (8608779455798124, -16);
(4537389397327130, -19); (8619683346221994, -16); (4540107952033793, -19); (8630449930628203, -16);
(4542793873242631, -19); (8641088571494663, -16); (4545449726219747, -19); (8651609138678200, -16);
(4548078227201481, -19); (8662022090955665, -16); (4550682266323894, -19); (8672338565183648, -16);
(4553264932646083, -19); (8682570473740338, -16); (4555829541435220, -19); (8692730610930815, -16);
(4558379663881761, -19); (8702832769045586, -16); (4560919159410250, -19); (8712891864758329, -16);
(4563452210743556, -19); (8722924076528336, -16); (4565983361864682, -19); (8732946993631147, -16);
(4568517558999058, -19); (8742979777371169, -16); (4571060194709263, -19); (8753043334925269, -16);
(4573617155151244, -19); (8763160506117581, -16); (4576194870483323, -19); (8773356263222484, -16);
(4578800368343567, -19); (8783657923622515, -16); (4581441330213403, -19); (8794095374796469, -16);
(4584126150361641, -19); (8804701310663527, -16); (4586863996908342, -19); (8815511477743261, -16);
(4589664874357118, -19); (8826564928888149, -16); (4592539686711794, -19); (8837904281482389, -16);
(4595500300013319, -19); (8849575975954920, -16); (4598559602799827, -19); (8861630529202465, -16);
(4601731562602071, -19); (8874122776038270, -16); (4605031276134677, -19); (8887112090056589, -16);
(4608475010329713, -19); (8900662573321374, -16); (4612080230785231, -19); (8914843202051330, -16);
(4615865613575363, -19); (8929727913000981, -16); (4619851035704269, -19); (8945395612571059, -16);
(4624057538807515, -19); (8961930087896581, -16); (4628507260045860, -19); (8979419796374420, -16);
(4633223323547168, -19); (8997957507473553, -16); (4638229685297288, -19); (9017639768452591, -16);
(4643550924143431, -19); (9038566164094044, -16); (4649211971655587, -19); (9060838340132801, -16);
(4655237774111018, -19); (9084558761162183, -16); (4661652880954744, -19); (9109829176962647, -16);
(4668480955879464, -19); (9136748776971255, -16)].
(* coeffs-rock4:3 *)
Definition l_FPA : list (Z * Z) := [
(-149352078672699, -15); (629768962985252, -15); (-355201061573650, -15); (146745996307541, -16);
(-558517281602565, -16); (590312931352706, -15); (-179313593132677, -15); (522354978881996, -15);
(-268020263243268, -15); (410644459848542, -16); (-673692676033641, -16); (534974252895965, -15);
(-182428104178289, -15); (488581974232839, -15); (-243999027372673, -15); (403844469216897, -16);
(-621100542563179, -16); (510891501054959, -15); (-177747282156689, -15); (475598890858970, -15);
(-236544145857569, -15); (357873367680739, -16); (-561802405454197, -16); (498502393780149, -15);
(-171097214294784, -15); (471021380996139, -15); (-235432301175529, -15); (305165148305403, -16);
(-508758913107147, -16); (491537536121394, -15); (-164446145110292, -15); (470315341552133, -15);
(-237054736024656, -15); (253636332272387, -16); (-462365759807733, -16); (487394153808489, -15);
(-158427655171257, -15); (471468878620055, -15); (-239853802450812, -15); (205746749952032, -16);
(-421744356707249, -16); (484829913014008, -15); (-153293058075572, -15); (473282079177035, -15);
(-242910850765406, -15); (163722321103915, -16); (-387108095861697, -16); (483081034299037, -15);
(-148972804305139, -15); (475296959544537, -15); (-245899260153289, -15); (127203010191100, -16);
(-357508839759137, -16); (481825981739298, -15); (-145179937599982, -15); (477661231491125, -15);
(-248988404183759, -15); (930730703798092, -17); (-330359105371527, -16); (481074258113903, -15);
(-141803779162182, -15); (480294472251598, -15); (-252149638985389, -15); (605980548716020, -17);
(-304878190339923, -16); (480717680079251, -15); (-139121943562170, -15); (482307569354585, -15);
(-254656989245024, -15); (349723479360248, -17); (-284636204606306, -16); (480267545886151, -15);
(-136626653539895, -15); (484641896383759, -15); (-257332057712838, -15); (915869293860006, -18);
(-264509129364182, -16); (480154720984400, -15); (-134486447576714, -15); (486757723660692, -15);
(-259733624852103, -15); (-135988997170157, -17); (-246765061257936, -16); (480084593714673, -15);
(-132780674018083, -15); (488321952587049, -15); (-261588769418801, -15); (-313701049350723, -17);
(-232786280695929, -16); (479882004899598, -15); (-131117609799413, -15); (490193639754613, -15);
(-263646432339284, -15); (-502134729674226, -17); (-218133033112692, -16); (479929065438669, -15);
(-129737943206222, -15); (491700319201409, -15); (-265337954300747, -15); (-657602712355092, -17);
(-205977998576123, -16); (479898556782486, -15); (-128546948141681, -15); (493011323225514, -15);
(-266816177922376, -15); (-793004771706004, -17); (-195369613099883, -16); (479857299633325, -15);
(-127460377104448, -15); (494293149884316, -15); (-268231271325724, -15); (-920717061172173, -17);
(-185386009080156, -16); (479869528636923, -15); (-126496410155342, -15); (495458691659965, -15);
(-269513232370108, -15); (-103575442717928, -16); (-176387115527810, -16); (479887174404288, -15);
(-124868416118615, -15); (497490597051425, -15); (-271737391165211, -15); (-123394260182449, -16);
(-160868868427959, -16); (479932724633469, -15); (-123564405510046, -15); (499164732520327, -15);
(-273565616640958, -15); (-139585436258901, -16); (-148169722656038, -16); (479973747650230, -15);
(-122505008329286, -15); (500555383947992, -15); (-275081797679137, -15); (-152951780850662, -16);
(-137670777523960, -16); (480009428375171, -15); (-121640329449530, -15); (501700402349954, -15);
(-276333007672789, -15); (-163961730000813, -16); (-129007107727469, -16); (480031673127157, -15);
(-120917917691482, -15); (502675119491259, -15); (-277395466055127, -15); (-173277807640047, -16);
(-121670308408281, -16); (480054118477096, -15); (-120710248396632, -15); (502361065588637, -15);
(-277299180400763, -15); (-173459597107178, -16); (-121268146405534, -16); (479596544727020, -15);
(-120151946726542, -15); (503187463625006, -15); (-278173489088946, -15); (-180998664145073, -16);
(-115355117518033, -16); (479663327238431, -15); (-119650804512964, -15); (503968844736113, -15);
(-278987558251327, -15); (-187954561730573, -16); (-109907774512063, -16); (479748806593835, -15);
(-119231690274109, -15); (504610327555198, -15); (-279662019452110, -15); (-193736976241804, -16);
(-105368584242475, -16); (479807172254604, -15); (-118685223311611, -15); (505479309944796, -15);
(-280566027535941, -15); (-201436607277488, -16); (-993291024114479, -17); (479903135786603, -15);
(-118231796286135, -15); (506213890671776, -15); (-281327499307895, -15); (-207902381330527, -16);
(-942553811892237, -17); (479988558979737, -15); (-117860168810132, -15); (506813986559461, -15);
(-281951733666353, -15); (-213206692268858, -16); (-900871675159034, -17); (480053891764692, -15);
(-117541632407920, -15); (507340547092223, -15); (-282496164808253, -15); (-217814864430309, -16);
(-864670120809640, -17); (480116952219068, -15); (-117280791290490, -15); (507762024730383, -15);
(-282936101835780, -15); (-221553810871189, -16); (-835235476491614, -17); (480159581641243, -15);
(-117020809344219, -15); (508234853606851, -15); (-283411245544839, -15); (-225511383509412, -16);
(-804255449961079, -17); (480240908974576, -15); (-116840110106662, -15); (508513931927332, -15);
(-283708061860511, -15); (-228054436800931, -16); (-784157438541911, -17); (480258758199155, -15);
(-116999141776097, -15); (507738965363869, -15); (-283085550597818, -15); (-223557928014705, -16);
(-817646181729438, -17); (479839084150866, -15); (-116787474223622, -15); (508124510062097, -15);
(-283473179991593, -15); (-226786360708563, -16); (-792370493215401, -17); (479905001144018, -15);
(-116543053242319, -15); (508649023059358, -15); (-283975543942050, -15); (-230858609767789, -16);
(-760742817737876, -17); (480040247388773, -15); (-116369877848172, -15); (508950670881779, -15);
(-284284071372858, -15); (-233448484372084, -16); (-740387836067644, -17); (480081925815726, -15);
(-115981831952477, -15); (509942937789055, -15); (-285192892337194, -15); (-240615204888854, -16);
(-685134671736066, -17); (480412958109969, -15); (-115934409239879, -15); (509932625794726, -15);
(-285214065725890, -15); (-240929036649298, -16); (-682325905888604, -17); (480353282861487, -15);
(-114543930853965, -15); (514055666969259, -15); (-288877128663596, -15); (-269187182378037, -16);
(-465261555222027, -17); (481928410401348, -15); (-114338190892959, -15); (514568129329710, -15);
(-289354467784058, -15); (-272970253684862, -16); (-435838305221696, -17); (482082731512007, -15);
(-113900806706479, -15); (515815247278763, -15); (-290479621681517, -15); (-281706242269155, -16);
(-368286974902504, -17); (482524745170433, -15); (-114241230745559, -15); (514642605930859, -15);
(-289464730587169, -15); (-274037778296787, -16); (-427016797791793, -17); (482029696494976, -15);
(-113830853818569, -15); (515834254672657, -15); (-290535565769687, -15); (-282330735764243, -16);
(-362939602828681, -17); (482459847410651, -15); (-113105039346215, -15); (518047629039909, -15);
(-292508542364670, -15); (-297505373346793, -16); (-245703714012197, -17); (483285747825278, -15);
(-113373695071906, -15); (517118156325443, -15); (-291701320745508, -15); (-291406743553601, -16);
(-292560575875699, -17); (482899951273987, -15); (-112938370080633, -15); (518440212713205, -15);
(-292882869228272, -15); (-300502325911247, -16); (-222188377341845, -17); (483386803334408, -15)].
(* coeffs-rock4:4 *)
Definition l_FPB : list (Z * Z) := [
(934502625489809, -15); (-426556402801135, -15); (-428612609028723, -15); (744370090574855, -15);
(727428506710284, -15); (-281882500610754, -15); (-366883181811475, -15); (684341322628128, -15);
(671969568061243, -15); (-247327027296030, -15); (-348410422675722, -15); (657516722491004, -15);
(655616700297981, -15); (-238808679740035, -15); (-342918097601918, -15); (643274312048176, -15);
(653766630051757, -15); (-239717659625342, -15); (-342124625373560, -15); (634842894408973, -15);
(657958401550080, -15); (-244504571310874, -15); (-343125007747822, -15); (629452994091047, -15);
(664644828327504, -15); (-250836131475691, -15); (-344767760715637, -15); (625804292371554, -15);
(671778926897883, -15); (-257341094888494, -15); (-346437936729090, -15); (623113789954589, -15);
(678662206121957, -15); (-263538563990534, -15); (-347971227180309, -15); (621040683222628, -15);
(685711960310753, -15); (-269724027269246, -15); (-349535907736682, -15); (619566456617273, -15);
(692884607363355, -15); (-275886628173354, -15); (-351131980732774, -15); (618568501341401, -15);
(698546656891454, -15); (-280881006247969, -15); (-352285102713857, -15); (617571192399056, -15);
(704573921792281, -15); (-286045457291729, -15); (-353563979295968, -15); (616965030808178, -15);
(709971428905986, -15); (-290682008221983, -15); (-354679184547433, -15); (616462060289197, -15);
(714125178664410, -15); (-294349691347616, -15); (-355464510591820, -15); (615888572779772, -15);
(718736274563484, -15); (-298288036358834, -15); (-356401512165052, -15); (615594896206387, -15);
(722517387767685, -15); (-301568462204942, -15); (-357129478686764, -15); (615267647826005, -15);
(725816343813274, -15); (-304448113195281, -15); (-357746756688570, -15); (614963961979991, -15);
(728974076820863, -15); (-307182320589777, -15); (-358345483491417, -15); (614739362936109, -15);
(731832397913825, -15); (-309659464712225, -15); (-358881456195461, -15); (614544900863432, -15);
(736786729484850, -15); (-313957288328657, -15); (-359797924432667, -15); (614228100935116, -15);
(740854099130286, -15); (-317495426161459, -15); (-360535121685962, -15); (613973796355241, -15);
(744223896195403, -15); (-320433632193417, -15); (-361135560093482, -15); (613766054898060, -15);
(747001832700433, -15); (-322865419691933, -15); (-361620350229670, -15); (613586121252665, -15);
(749359431920161, -15); (-324930741701897, -15); (-362028107948934, -15); (613438378039065, -15);
(749100998320598, -15); (-324985993239383, -15); (-361796607662197, -15); (612867258144605, -15);
(751043873200700, -15); (-326661586308774, -15); (-362147816931696, -15); (612807453647952, -15);
(752854624396087, -15); (-328210433831008, -15); (-362482431451812, -15); (612782100341090, -15);
(754353169889782, -15); (-329501139703409, -15); (-362752509396770, -15); (612745403519662, -15);
(756363017447499, -15); (-331222786188901, -15); (-363119850550614, -15); (612719466518580, -15);
(758055963580132, -15); (-332671506824595, -15); (-363429198770158, -15); (612703916106263, -15);
(759443004727975, -15); (-333862330033422, -15); (-363679324780792, -15); (612685408765563, -15);
(760653160327002, -15); (-334898139570366, -15); (-363899175365336, -15); (612677301460611, -15);
(761629956010211, -15); (-335739950284413, -15); (-364072376423153, -15); (612660139381166, -15);
(762688789887627, -15); (-336630474589357, -15); (-364274785126092, -15); (612687294013859, -15);
(763346400554849, -15); (-337204680067583, -15); (-364385896133756, -15); (612661785846953, -15);
(761923304846226, -15); (-336206156720779, -15); (-363978603432088, -15); (612221699604794, -15);
(762786806785331, -15); (-336933071907623, -15); (-364142956905108, -15); (612243212238912, -15);
(763911644345184, -15); (-337848624997397, -15); (-364378249037553, -15); (612335667041690, -15);
(764597562248984, -15); (-338433363367646, -15); (-364503441229143, -15); (612339040874567, -15);
(766642781170500, -15); (-340044276021276, -15); (-364967251951014, -15); (612618883157375, -15);
(766682555493412, -15); (-340118220148353, -15); (-364946973037536, -15); (612538317898983, -15);
(774955438746513, -15); (-346489297090328, -15); (-366916081411072, -15); (613985554671875, -15);
(776027351639685, -15); (-347348043660042, -15); (-367147411126057, -15); (614109087783370, -15);
(778563137974742, -15); (-349330512988104, -15); (-367727843519890, -15); (614502095324990, -15);
(776264664166250, -15); (-347594735539935, -15); (-367159451116240, -15); (614023148520995, -15);
(778679038214519, -15); (-349476481579656, -15); (-367715953710640, -15); (614409463784688, -15);
(783131247138323, -15); (-352927933064792, -15); (-368752741091226, -15); (615166687043411, -15);
(781304104495501, -15); (-351541585232233, -15); (-368306700790280, -15); (614794688266817, -15);
(783969323650751, -15); (-353613571196170, -15); (-368922535023076, -15); (615238813023293, -15)].
(* coeffs-rock4:5 *)
Definition l_FPBE : list (Z * Z) := [
(113509972110540, -14); (-584333360989720, -15); (-319172911177732, -15); (482853558185876, -15);
(109256697110981, -15); (100479199674788, -14); (-436644602461537, -15); (-423443966877378, -15);
(538770645909717, -15); (795300735974956, -16); (984907410167693, -15); (-403297625005343, -15);
(-485090625106059, -15); (576309835350610, -15); (609198451735942, -16); (980171201303714, -15);
(-394437889689979, -15); (-517381582925487, -15); (601142288908999, -15); (476702174069568, -16);
(974834695776200, -15); (-392308952799017, -15); (-530263724070033, -15); (616510618632796, -15);
(379946019218839, -16); (966668353329992, -15); (-391741144639394, -15); (-531455776704021, -15);
(625494551194751, -15); (308158334011040, -16); (956319747720222, -15); (-391138376736994, -15);
(-526142643689543, -15); (630404554467362, -15); (254019467466823, -16); (943587787064690, -15);
(-389377300510789, -15); (-516876350192269, -15); (632531861517858, -15); (212476873553974, -16);
(929868441621807, -15); (-386750527439590, -15); (-505935645060380, -15); (633001592986906, -15);
(180092360649997, -16); (917878947092234, -15); (-384686528119553, -15); (-495511556683115, -15);
(632891756120139, -15); (154458635123923, -16); (907921031017813, -15); (-383354597608536, -15);
(-486086276370317, -15); (632568615019003, -15); (133857277406643, -16); (896388476009400, -15);
(-380504535913835, -15); (-476131894672218, -15); (631491892380436, -15); (117078025249012, -16);
(887685870010584, -15); (-378944197433540, -15); (-467828653690999, -15); (630692391160778, -15);
(103241059659401, -16); (879470814062224, -15); (-377245094706344, -15); (-460102121012690, -15);
(629778007382364, -15); (917069070021292, -17); (870530751362587, -15); (-374648589005799, -15);
(-452452352164561, -15); (628569291738020, -15); (820044757449899, -17); (864018892596866, -15);
(-373280954775127, -15); (-446202255714937, -15); (627730565946685, -15); (737537419249938, -17);
(857357924295629, -15); (-371485680656218, -15); (-440234425775788, -15); (626780133051391, -15);
(666914378696866, -17); (851096961215784, -15); (-369663988413454, -15); (-434754090977242, -15);
(625846657124080, -15); (605989696024640, -17); (845691163494378, -15); (-368162878390094, -15);
(-429905486466339, -15); (625032425385260, -15); (553041165257352, -17); (840754783321373, -15);
(-366754374490097, -15); (-425504080282415, -15); (624272520855683, -15); (506752846502820, -17);
(832129732678031, -15); (-364215201885908, -15); (-417868687835329, -15); (622912972095680, -15);
(430080260616755, -17); (824841358445432, -15); (-361969316759517, -15); (-411506554101034, -15);
(621735648069777, -15); (369621198344728, -17); (818660702021942, -15); (-359997706140366, -15);
(-406173910081373, -15); (620720634622955, -15); (321103838340649, -17); (813343156361523, -15);
(-358234931076463, -15); (-401657773073081, -15); (619835953653306, -15); (281577816620828, -17);
(808812551334635, -15); (-356709737514645, -15); (-397829666549206, -15); (619076368359449, -15);
(248944467816156, -17); (802058241484851, -15); (-353305127983149, -15); (-393665858753007, -15);
(617880189866334, -15); (221821094859412, -17); (799023019885202, -15); (-352371068280062, -15);
(-390970958156562, -15); (617372975124671, -15); (198795503493263, -17); (796533707522770, -15);
(-351659214274525, -15); (-388680577600314, -15); (616958145987822, -15); (179179781860265, -17);
(794254415802991, -15); (-350955011234794, -15); (-386652430547127, -15); (616574541234043, -15);
(162340905415174, -17); (791451974069317, -15); (-350127723737597, -15); (-384099751306937, -15);
(616103218945433, -15); (141212925634866, -17); (789140296939903, -15); (-349447391105024, -15);
(-381986708309451, -15); (615713343205178, -15); (123963336103694, -17); (787155036742462, -15);
(-348839107260454, -15); (-380202863720354, -15); (615376708082511, -15); (109698483515876, -17);
(785509443687073, -15); (-348347728366112, -15); (-378703894403193, -15); (615097681507449, -15);
(977644426693831, -18); (784038223206202, -15); (-347876842227869, -15); (-377407083344177, -15);
(614846655967241, -15); (876815082414696, -18); (783010378301710, -15); (-347648245486129, -15);
(-376356876713355, -15); (614674780335034, -15); (790787748777402, -18); (781833266343420, -15);
(-347234482878725, -15); (-375370253527294, -15); (614472179428255, -15); (716900834807566, -18);
(778157258445688, -15); (-345006104027160, -15); (-373629716648469, -15); (613804905745683, -15);
(633900782409020, -18); (777300034873279, -15); (-344806720424309, -15); (-372764739426396, -15);
(613661241678936, -15); (564173510000384, -18); (776985336763925, -15); (-344948310351192, -15);
(-372138199888685, -15); (613616309802328, -15); (505301025547597, -18); (776123576908821, -15);
(-344696744011525, -15); (-371340582024658, -15); (613469644712914, -15); (443902941209962, -18);
(776949282583553, -15); (-345654199916775, -15); (-371072531043118, -15); (613634699306968, -15);
(392885424956897, -18); (775876610212432, -15); (-345123309087147, -15); (-370392356339381, -15);
(613444359409516, -15); (350376011087039, -18); (783347589653809, -15); (-351086251339795, -15);
(-371860974551612, -15); (614828131953302, -15); (307119201283797, -18); (783496656673086, -15);
(-351443051706240, -15); (-371545102252444, -15); (614860564019234, -15); (271917903319380, -18);
(785178130625954, -15); (-352964147655529, -15); (-371615967722576, -15); (615170969674100, -15);
(237891869788885, -18); (782045229930799, -15); (-350764936286095, -15); (-370561648626977, -15);
(614604810918108, -15); (210170095234033, -18); (783792445229447, -15); (-352285904984906, -15);
(-370720709266521, -15); (614926468923107, -15); (183766807783551, -18); (787664243592327, -15);
(-355426631067992, -15); (-371408773264980, -15); (615628921926696, -15); (159498839664580, -18);
(785248632105467, -15); (-353713152595833, -15); (-370620439974436, -15); (615195478568662, -15);
(139988635943928, -18); (787452369208138, -15); (-355534844520464, -15); (-370962019539811, -15);
(615594462312992, -15); (122062993942758, -18)].
