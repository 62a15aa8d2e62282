(* The tables of SymplecticRK/sage/generated_coeffs.hpp (icoeffs: la, lb) and generated_coeffs_co.hpp
   (extrapcoeffs: lc), as decimal numbers (m, e) = m*10^e.  The lists lb of "double" and "long double" are the same.
   The conversion of the literals to double (initializer_list<double>) is not modelled.
   Generated by a script from the two files. *)
From Coq Require Import ZArith List.
Import ListNotations.
Open Scope Z_scope.

(* generated_coeffs.hpp:1, :271 *)
Definition la_d2 := [(25, -2); (-386751345948, -13); (538675134595, -12); (25, -2)].
Definition la_l2 := [(250000000000000000000000000000000, -33); (-386751345948128822545743902509787, -34); (538675134594812882254574390250979, -33); (250000000000000000000000000000000, -33)].
Definition lb2 := [(5000000000000000000000000000000000000000000000000000000000000000000000000000000000000000000000000000000000000000000000000000000000000000000000000000000000000000000000000000000000000000000000000000000000000000000000000000000000000000000000000000000000000000000000000000000000000000000000000000000000000000000, -307); (5000000000000000000000000000000000000000000000000000000000000000000000000000000000000000000000000000000000000000000000000000000000000000000000000000000000000000000000000000000000000000000000000000000000000000000000000000000000000000000000000000000000000000000000000000000000000000000000000000000000000000000, -307)].
(* generated_coeffs_co.hpp:1, :91 *)
Definition lc_d2 := [(-144337567297, -11); (265470053838, -11); (-176853598869, -11); (250218995347, -11)].
Definition lc_l2 := [(-144337567297406441127287195125489, -32); (265470053837925152901829756100391, -32); (-176853598869462141624860782523333, -32); (250218995346906875953341290652353, -32)].
(* generated_coeffs.hpp:12, :282 *)
Definition la_d3 := [(138888888889, -12); (-359766675249, -13); (978944401531, -14); (300263194981, -12); (222222222222, -12); (-224854172031, -13); (267988333762, -12); (480421111969, -12); (138888888889, -12)].
Definition la_l3 := [(138888888888888888888888888888889, -33); (-359766675249389034563954710966044, -34); (978944401530832604958004222947557, -35); (300263194980864592438024947213156, -33); (222222222222222222222222222222222, -33); (-224854172030868146602471694353778, -34); (267988333762469451728197735548302, -33); (480421111969383347900839915541049, -33); (138888888888888888888888888888889, -33)].
Definition lb3 := [(2777777777777777777777777777777777777777777777777777777777777777777777777777777777777777777777777777777777777777777777777777777777777777777777777777777777777777777777777777777777777777777777777777777777777777777777777777777777777777777777777777777777777777777777777777777777777777777777777777777777777777778, -307); (4444444444444444444444444444444444444444444444444444444444444444444444444444444444444444444444444444444444444444444444444444444444444444444444444444444444444444444444444444444444444444444444444444444444444444444444444444444444444444444444444444444444444444444444444444444444444444444444444444444444444444444, -307); (2777777777777777777777777777777777777777777777777777777777777777777777777777777777777777777777777777777777777777777777777777777777777777777777777777777777777777777777777777777777777777777777777777777777777777777777777777777777777777777777777777777777777777777777777777777777777777777777777777777777777777778, -307)].
(* generated_coeffs_co.hpp:7, :97 *)
Definition lc_d3 := [(10, -1); (-332379000772, -11); (34364916731, -10); (164959666924, -11); (-478568501159, -11); (375514084041, -11); (294601792214, -11); (-774471701777, -11); (5257912926, -9)].
Definition lc_l3 := [(100000000000000000000000000000000, -32); (-332379000772445013110755923986944, -32); (343649167310370844258963269989120, -32); (164959666924148337703585307995648, -32); (-478568501158667519666133885980416, -32); (375514084041407928684859596988032, -32); (294601792213815217620118779490752, -32); (-774471701776623530154738625169971, -32); (525791292600037724175496741484224, -32)].
(* generated_coeffs.hpp:24, :294 *)
Definition la_d4 := [(869637112844, -13); (-26604180085, -12); (126274626894, -13); (-35551496858, -13); (1881181175, -10); (163036288716, -12); (-278804286025, -13); (673550059454, -14); (167191921974, -12); (353953006034, -12); (163036288716, -12); (-141906949311, -13); (177482572255, -12); (313445114742, -12); (352676757516, -12); (869637112844, -13)].
Definition la_l4 := [(869637112843634643432659873054999, -34); (-266041800849987933133851304769531, -34); (126274626894047245150568805746181, -34); (-355514968579568315691098184956959, -35); (188118117499868071650685545087171, -33); (163036288715636535656734012694500, -33); (-278804286024708952241511064189974, -34); (673550059453815551539866908570376, -35); (167191921974188773171133305525296, -33); (353953006033743966537619131807998, -33); (163036288715636535656734012694500, -33); (-141906949311411429641535704761715, -34); (177482572254522611843442956460569, -33); (313445114741868346798411144814382, -33); (352676757516271864626853155865953, -33); (869637112843634643432659873054999, -34)].
Definition lb4 := [(1739274225687269286865319746109997036176743479169467702462646597593759337329551758609918838661290797548990519523817510772122211251629908904285121491608348124296432385221819599013166869759217993363234069631440146323419871999946106394206210691233975331271719538471006793957704766095937512965786146277614280411, -307); (3260725774312730713134680253890002963823256520830532297537353402406240662670448241390081161338709202451009480476182489227877788748370091095714878508391651875703567614778180400986833130240782006636765930368559853676580128000053893605793789308766024668728280461528993206042295233904062487034213853722385719588, -307); (3260725774312730713134680253890002963823256520830532297537353402406240662670448241390081161338709202451009480476182489227877788748370091095714878508391651875703567614778180400986833130240782006636765930368559853676580128000053893605793789308766024668728280461528993206042295233904062487034213853722385719589, -307); (1739274225687269286865319746109997036176743479169467702462646597593759337329551758609918838661290797548990519523817510772122211251629908904285121491608348124296432385221819599013166869759217993363234069631440146323419871999946106394206210691233975331271719538471006793957704766095937512965786146277614280411, -307)].
(* generated_coeffs_co.hpp:13, :103 *)
Definition lc_d4 := [(-135307244905, -12); (136140068465, -11); (-397544968198, -11); (381878808643, -11); (-537612925376, -12); (300404135671, -11); (-649890590866, -11); (460431971203, -11); (-163717031842, -11); (684757575689, -11); (-119249796864, -10); (712227177835, -11); (-410029878722, -11); (14775159637, -9); (-223365646865, -10); (119887073781, -10)].
Definition lc_l4 := [(-135307244904688787411431296975496, -33); (136140068465488733668292376422488, -32); (-397544968197561526882229403937933, -32); (381878808642839043193882832768355, -32); (-537612925375784480135853564851234, -33); (300404135671062937217916717984556, -32); (-649890590866445442087731334533293, -32); (460431971202729624837725199101190, -32); (-163717031842245700354336803004939, -32); (684757575688715536726519348367821, -32); (-119249796863829679117446327133569, -31); (712227177834886743621767783385215, -32); (-410029878721799225771340611081784, -32); (147751596370192998341951206152680, -31); (-223365646864978729902361776703725, -31); (119887073780806096349127195892873, -31)].
(* generated_coeffs.hpp:37, :307 *)
Definition la_d5 := [(59231721264, -12); (-195703643591, -13); (112544008186, -13); (158811296787, -14); (-559379366081, -14); (12815100567, -11); (119657167625, -12); (-245921146196, -13); (-276899439877, -14); (103182806707, -13); (113776288004, -12); (260004651681, -12); (142222222222, -12); (468715452387, -14); (-20690316431, -12); (11687532956, -11); (24490812891, -11); (273190043626, -12); (59231721264, -12); (258884699609, -12); (121232436927, -12); (228996054579, -12); (309036559064, -12); (-968756314195, -14); (119657167625, -12)].
Definition la_l5 := [(592317212640472718785660101799793, -34); (-195703643590760374926432140508841, -34); (112544008186429555527162442150907, -34); (158811296786599853936524247059342, -35); (-559379366081218487681772196447593, -35); (128151005670045283496166848329514, -33); (119657167624841617010322878708910, -33); (-245921146196422003893182516860040, -34); (-276899439876960304428263075887960, -35); (103182806706833574089539450563558, -34); (113776288004224602528741273815366, -33); (260004651680641518592405895187574, -33); (142222222222222222222222222222222, -33); (468715452386994122839074654459310, -35); (-206903164309582845717601377697549, -34); (116875329560228545217766777889365, -33); (244908128910495418897463479382295, -33); (273190043625801488891728200229354, -33); (592317212640472718785660101799793, -34); (258884699608759271513288971468703, -33); (121232436926864146801414651118838, -33); (228996054578999876611691812361463, -33); (309036559064086644833762696130448, -33); (-968756314195073973903482796955514, -35); (119657167624841617010322878708910, -33)].
Definition lb5 := [(1184634425280945437571320203599586813216300011062070077914139441108586442015215492899967152469757223880545673040716627906313826942511840667659767896400087242787267677997923561060269100106932615429966725346009416978348146320955363536457524959211020974511812831134713995185082911486960583374788694003121486989, -307); (2393143352496832340206457574178190964561477766715707699863638336669191335762562284877810625308020553897232104737061149871463950835265937110118009881377690534990510099779854216717508677670845162347811052431768360799429631456822414241320252818566756803265964946643063782592694866290817194402989083774656290784, -307); (2844444444444444444444444444444444444444444444444444444444444444444444444444444444444444444444444444444444444444444444444444444444444444444444444444444444444444444444444444444444444444444444444444444444444444444444444444444444444444444444444444444444444444444444444444444444444444444444444444444444444444446, -307); (1184634425280945437571320203599586813216300011062070077914139441108586442015215492899967152469757223880545673040716627906313826942511840667659767896400087242787267677997923561060269100106932615429966725346009416978348146320955363536457524959211020974511812831134713995185082911486960583374788694003121486989, -307); (2393143352496832340206457574178190964561477766715707699863638336669191335762562284877810625308020553897232104737061149871463950835265937110118009881377690534990510099779854216717508677670845162347811052431768360799429631456822414241320252818566756803265964946643063782592694866290817194402989083774656290788, -307)].
(* generated_coeffs_co.hpp:19, :109 *)
Definition lc_d5 := [(-12408089245, -9); (332494963344, -10); (-382237939377, -10); (-502873063466, -11); (2345802756, -8); (-229802116869, -10); (611304952923, -10); (-697821321607, -10); (-116080506014, -10); (437879095114, -10); (-421725807055, -10); (111473716235, -9); (-126392162977, -9); (-225124628922, -10); (799859687145, -10); (-770853906901, -10); (202751332845, -9); (-228757413486, -9); (-421641229899, -10); (14555590967, -8); (-140652179469, -9); (368574355006, -9); (-414483182984, -9); (-780638446566, -10); (264876374636, -9)].
Definition lc_l5 := [(-124080892450490375587308213492748, -31); (332494963343543122595047165192804, -31); (-382237939376551451088552478458438, -31); (-502873063465664557784727417127220, -32); (234580275600371839895298134079607, -31); (-229802116869279084515788861808107, -31); (611304952922655617531320397240784, -31); (-697821321606709158906772005941420, -31); (-116080506013676378348468198236619, -31); (437879095113950800304828916374698, -31); (-421725807054847527822486163824507, -31); (111473716235233254622573504718593, -30); (-126392162976933262911255515008908, -30); (-225124628922089691017572401806333, -31); (799859687144913883505789216338612, -31); (-770853906901439939750903731632864, -31); (202751332845047950535923907231318, -30); (-228757413485767381207785815917637, -30); (-421641229898811247987888566088867, -31); (145555909669596589986031494575773, -30); (-140652179469191843700916683271813, -30); (368574355005736335933984903522633, -30); (-414483182984262126760100116786341, -30); (-780638446566238302686280263411386, -31); (264876374636341610152333990318813, -30)].
(* generated_coeffs.hpp:51, :321 *)
Definition la_d6 := [(428311230948, -13); (-147637259972, -13); (932505070648, -14); (-566885804948, -14); (28544333151, -13); (-812780171265, -15); (926734914304, -13); (90190393262, -12); (-203001022932, -13); (103631562402, -13); (-488719292804, -14); (135556105549, -14); (822479226128, -13); (196032162333, -12); (116978483643, -12); (-204825277457, -13); (798999189966, -14); (-207562578487, -14); (877378719745, -13); (172390794624, -12); (254439495032, -12); (116978483643, -12); (-156513758092, -13); (341432357674, -14); (843066851341, -13); (185267979452, -12); (223593811046, -12); (25425706958, -11); (90190393262, -12); (-701124524079, -14); (864750263608, -13); (177526353209, -12); (239625825336, -12); (22463191658, -11); (195144512521, -12); (428311230948, -13)].
Definition la_l6 := [(428311230947925862600740355431832, -34); (-147637259971974124753725910605207, -34); (932505070647775119143888450800315, -35); (-566885804948351190092125641621651, -35); (285443331509933513092928583011602, -35); (-812780171264762112299135651562540, -36); (926734914303788631865122917633203, -34); (901903932620346518924583784594290, -34); (-203001022932395859524940805242725, -34); (103631562402464237307199458065600, -34); (-488719292803767146341420376578964, -35); (135556105548506177551787075080011, -35); (822479226128438738077716511411289, -34); (196032162333245006055759781563801, -33); (116978483643172761847467585997388, -33); (-204825277456560976298590118654006, -34); (798999189966233579720442148030827, -35); (-207562578486633419359528915758165, -35); (877378719744515067137433602439481, -34); (172390794624406967987712335438550, -33); (254439495032001621324794183860176, -33); (116978483643172761847467585997388, -33); (-156513758091757022708430246449433, -34); (341432357674129871237641994523753, -35); (843066851341001107446302003355663, -34); (185267979452106975248330960684648, -33); (223593811046099099964215226188216, -33); (254257069579585109647429252519048, -33); (901903932620346518924583784594290, -34); (-701124524079369066636422067695387, -35); (864750263608499346324472067379290, -34); (177526353208969968653987471088742, -33); (239625825335829035595856428410992, -33); (224631916579867772503496287486772, -33); (195144512521266716260289347979379, -33); (428311230947925862600740355431832, -34)].
Definition lb6 := [(8566224618958517252014807108636644676341125074202199119931771989947288027117007732396385271319433487605826103493720215459587358373108798731482461465901572422603356755458416054218589970338344360633462427849702407971466367851249202671691209118162205918730519560261955952209532993378216817826634236399948461046, -308); (1803807865240693037849167569188580558307609463733727411448696201185700189186308591604811009944096739715586045701853992949399451391821605353883936057042909461057251361262878885563000366184414295815801447555900258704068427735372412362430505916299657249086082012127933887691908831941502165467828465166324213883, -307); (2339569672863455236949351719947754974058278028846052676558126599819571008101990635155550462923959911523831343948773985504641812770867514772967817796366933296682412963191279509015140636781751268120852309659129500498784935479502667370400373171884122159040866031845870517087137868720676152749508111193680939998, -307); (2339569672863455236949351719947754974058278028846052676558126599819571008101990635155550462923959911523831343948773985504641812770867514772967817796366933296682412963191279509015140636781751268120852309659129500498784935479502667370400373171884122159040866031845870517087137868720676152749508111193680939993, -307); (1803807865240693037849167569188580558307609463733727411448696201185700189186308591604811009944096739715586045701853992949399451391821605353883936057042909461057251361262878885563000366184414295815801447555900258704068427735372412362430505916299657249086082012127933887691908831941502165467828465166324213892, -307); (8566224618958517252014807108636644676341125074202199119931771989947288027117007732396385271319433487605826103493720215459587358373108798731482461465901572422603356755458416054218589970338344360633462427849702407971466367851249202671691209118162205918730519560261955952209532993378216817826634236399948461044, -308)].
(* generated_coeffs_co.hpp:25, :115 *)
Definition lc_d6 := [(149639906744, -11); (-495180935208, -11); (816737188579, -11); (-744012682161, -11); (131773061431, -11); (244419984905, -11); (346885805125, -11); (-109780747982, -10); (165595161236, -10); (-136754887605, -10); (29031131121, -10); (225641156057, -11); (711511835867, -11); (-216456349346, -10); (302555924942, -10); (-223416240113, -10); (347355841317, -11); (351124117949, -11); (135351598873, -10); (-396617231803, -10); (514704918804, -10); (-330427203787, -10); (857972597258, -12); (712633339479, -11); (242342876135, -10); (-68298636147, -9); (815084716482, -10); (-421205642015, -10); (-110450057011, -10); (159575705137, -10); (409593172786, -10); (-110308373491, -9); (117679699401, -9); (-377198023313, -10); (-467864069848, -10); (363789798789, -10)].
Definition lc_l6 := [(149639906743931150170865743165221, -32); (-495180935208180235143946990968911, -32); (816737188579422643880960262595151, -32); (-744012682160895177207402084354309, -32); (131773061430654815259391059778265, -32); (244419984904909201649516932059883, -32); (346885805124527998912589880976624, -32); (-109780747982168482045249387497191, -31); (165595161235581040943189567698421, -31); (-136754887605368487943822582992659, -31); (290311311209734720820431537689784, -32); (225641156056538447906452159834394, -32); (711511835867093589005360090792946, -32); (-216456349345666900729344518014013, -31); (302555924942497912188853069793345, -31); (-223416240113366871629470601435484, -31); (347355841317324175691484021542290, -32); (351124117949273710338609959959303, -32); (135351598873204907206130851821985, -31); (-396617231803398217698073670078747, -31); (514704918804032815556367028451887, -31); (-330427203786641164534802601768582, -31); (857972597257570309916028931380322, -33); (712633339478597956084901084518200, -32); (242342876134922468623845858854074, -31); (-682986361470160227079104024397649, -31); (815084716482095788888727615984547, -31); (-421205642015401486742305911687352, -31); (-110450057011243979267195579430256, -31); (159575705136612307359928024704931, -31); (409593172785713586917120193028690, -31); (-110308373491478239521311464963708, -30); (117679699400637902139903279302536, -30); (-377198023312642406115052298157596, -31); (-467864069848232444708783542820675, -31); (363789798788849947653870930332267, -31)].
(* generated_coeffs.hpp:66, :336 *)
Definition la_d7 := [(323712415422, -13); (-114510172832, -13); (763320387242, -14); (-513373356323, -14); (317505877369, -14); (-160681903705, -14); (458109523749, -15); (700435413787, -13); (699263478723, -13); (-165900065788, -13); (934962278344, -14); (-53970919319, -13); (264584386673, -14); (-743850190172, -15); (621539357873, -13); (152005522058, -12); (954575126263, -13); (-183752442155, -13); (871256259848, -14); (-395358015881, -14); (107671561563, -14); (663329286177, -13); (133595769224, -12); (207701880766, -12); (104489795918, -12); (-167868555134, -13); (625692652076, -14); (-159044553325, -14); (636657674688, -13); (143806275903, -12); (182202462654, -12); (227354836052, -12); (954575126263, -13); (-121528263132, -13); (258854729708, -14); (654863332746, -13); (137206851878, -12); (196312117184, -12); (199629969053, -12); (207505031831, -12); (699263478723, -13); (-530105829429, -14); (642843735607, -13); (141459514782, -12); (187739966479, -12); (2141133254, -10); (18328182138, -11); (151303713028, -12); (323712415422, -13)].
Definition la_l7 := [(323712415422174233176528581697705, -34); (-114510172831838702881645824731459, -34); (763320387242354492584664422163565, -35); (-513373356322534498195629758233913, -35); (317505877368563763683431730199470, -35); (-160681903704610585560610128347643, -35); (458109523749452982298319621634935, -36); (700435413787260762729814536065897, -34); (699263478723191669753669428559449, -34); (-165900065788477711644699061373328, -34); (934962278344333207631107766792938, -35); (-539709193189613785462120177242070, -35); (264584386673003737983031295579446, -35); (-743850190171923617331065816899149, -36); (621539357873498645358789291293530, -34); (152005522057830992561321708847833, -33); (954575126262797362375924438722438, -34); (-183752442154518373892046007271753, -34); (871256259847518198378369475574952, -35); (-395358015881043812088052856667313, -35); (107671561562791673820514665018881, -35); (663329286176847005521322620413143, -34); (133595769223882288417924053929659, -33); (207701880765970782089300497781520, -33); (104489795918367346938775510204082, -33); (-167868555134113096141156100370328, -34); (625692652075604553280983178223092, -35); (-159044553324985391682654570177327, -35); (636657674688069298971005696893522, -34); (143806275903448772071614414278563, -33); (182202462654084290491401192988738, -33); (227354836052186531266755621135339, -33); (954575126262797362375924438722438, -34); (-121528263131926586105878231359428, -34); (258854729708498209942678721018804, -35); (654863332746067702526367821564402, -34); (137206851877908296570903572756095, -33); (196312117184455610329806089516908, -33); (199629969053291361801239942740234, -33); (207505031831407243639654793881820, -33); (699263478723191669753669428559449, -34); (-530105829429122963767573726704867, -35); (642843735606853936530073967179061, -34); (141459514781684439806339986995366, -33); (187739966478873834838350570442493, -33); (214113325399960038859507317990502, -33); (183281821380135927549338243522852, -33); (151303713027822204238898468185036, -33); (323712415422174233176528581697705, -34)].
Definition lb7 := [(6474248308443484663530571633954100916429370112997333198860431936232761748602115435781270908146042254474220100081721394053267244690945223132481735399963051892701205815645879446846948686831625869354268147689681310258033921680931826682680405544866030630933618429798268329896388687424464087706025693979688590650, -308); (1398526957446383339507338857118897912434625326132993822685070163468094052152813384066204714505988093831616876066860257595678184897815599721856763289061684272781796012668454596321597416751246674133954639821431151054078010310846402444833814154107083600369182776994831059986251375004710230941620198915564132896, -307); (1909150252525594724751848877444875669391825417669313673755417255153527732170648541743423296720224007251573358822926786672464478388191918781221593783186908497131756875154712561034524041096202983828577729083070105675220638337386945499143043250589986805925210482066158433554722001150802543961246619441569048930, -307); (2089795918367346938775510204081632653061224489795918367346938775510204081632653061224489795918367346938775510204081632653061224489795918367346938775510204081632653061224489795918367346938775510204081632653061224489795918367346938775510204081632653061224489795918367346938775510204081632653061224489795918361, -307); (1909150252525594724751848877444875669391825417669313673755417255153527732170648541743423296720224007251573358822926786672464478388191918781221593783186908497131756875154712561034524041096202983828577729083070105675220638337386945499143043250589986805925210482066158433554722001150802543961246619441569048914, -307); (1398526957446383339507338857118897912434625326132993822685070163468094052152813384066204714505988093831616876066860257595678184897815599721856763289061684272781796012668454596321597416751246674133954639821431151054078010310846402444833814154107083600369182776994831059986251375004710230941620198915564132877, -307); (6474248308443484663530571633954100916429370112997333198860431936232761748602115435781270908146042254474220100081721394053267244690945223132481735399963051892701205815645879446846948686831625869354268147689681310258033921680931826682680405544866030630933618429798268329896388687424464087706025693979688590471, -308)].
(* generated_coeffs_co.hpp:31, :121 *)
Definition lc_d7 := [(-191120187841, -11); (665652759191, -11); (-127292168649, -10); (181176202649, -10); (-174616733791, -10); (796098671628, -11); (392403593092, -12); (-519865835727, -11); (177863259876, -10); (-325093393348, -10); (426183498714, -10); (-379642372565, -10); (181682283162, -10); (-237489943226, -11); (-126924582123, -10); (425222463482, -10); (-74518286234, -9); (917241851084, -10); (-767869482599, -10); (364779223931, -10); (-636722877294, -11); (-288016213917, -10); (945845579493, -10); (-159757941566, -9); (186855037157, -9); (-148584647226, -9); (690276582948, -10); (-130466093395, -10); (-618496467489, -10); (199450073684, -9); (-326127694831, -9); (365115860088, -9); (-277225297295, -9); (12464287708, -8); (-237793975572, -10); (-127150589514, -9); (403254742675, -9); (-640329586138, -9); (688994905272, -9); (-500006854823, -9); (214902196978, -9); (-394710270061, -10); (-25215521835, -8); (787350624132, -9); (-121636742045, -8); (125972396109, -8); (-871096011391, -9); (35130665463, -8); (-585922594642, -10)].
Definition lc_l7 := [(-191120187840706148059343153339619, -32); (665652759190947097926182607655844, -32); (-127292168648694984662764731379728, -31); (181176202649195974587105791611953, -31); (-174616733790926634353730548203877, -31); (796098671627692504368896267036905, -32); (392403593091850638318496741609958, -33); (-519865835727433058441028937337961, -32); (177863259875997465506681553498387, -31); (-325093393347882978136644467302933, -31); (426183498714162914750919707447822, -31); (-379642372564774438754821752867909, -31); (181682283161856404297400910069268, -31); (-237489943225972140043994937826719, -32); (-126924582123093563087501515401057, -31); (425222463481699544055616587560432, -31); (-745182862339952554415153487918320, -31); (917241851083633573607985030566396, -31); (-767869482599494432441820403305810, -31); (364779223930853985430329998272872, -31); (-636722877294198861104454960548662, -32); (-288016213917061138053390452891089, -31); (945845579492985955875880487692287, -31); (-159757941566257764882047123910280, -30); (186855037156516665445560863605916, -30); (-148584647226412484336661254556154, -30); (690276582947818295702864174410238, -31); (-130466093395153273856608853441942, -31); (-618496467489083919740734662853765, -31); (199450073684103533001519499240391, -30); (-326127694831069676842085164319705, -30); (365115860088233912284775986636401, -30); (-277225297295451381351587775194686, -30); (124642877080461840288276012062188, -30); (-237793975571716263282331655745455, -31); (-127150589513851883135544067747503, -30); (403254742674680672031828264052813, -30); (-640329586138398034934086416724497, -30); (688994905272083876945019711555962, -30); (-500006854822796777795114554277379, -30); (214902196977754856228751627384792, -30); (-394710270061112237052768425440148, -31); (-252155218350409524792213670733784, -30); (787350624132017907905283699702557, -30); (-121636742044747276254645881198231, -29); (125972396109181852482064404550487, -29); (-871096011390937797024743593539612, -30); (351306654629544856924200356477215, -30); (-585922594641566066942375759823070, -31)].
(* generated_coeffs.hpp:82, :352 *)
Definition la_d8 := [(253071340726, -13); (-910594330597, -14); (628083114703, -14); (-448301561305, -14); (307849136833, -14); (-191767525464, -14); (972757664059, -15); (-277508327117, -15); (547593217676, -13); (555952586133, -13); (-136397962358, -13); (814970885836, -14); (-521535208915, -14); (313975298546, -14); (-156493491095, -14); (442802304342, -15); (485875359989, -13); (120859524997, -12); (784266614695, -13); (-159751033619, -13); (837173272023, -14); (-46434658621, -13); (222571477528, -14); (-618805695251, -15); (518655209706, -13); (106193490148, -12); (170671134275, -12); (906709458446, -13); (-16021041321, -12); (724120656122, -14); (-319781431036, -14); (859236584265, -15); (497550315609, -13); (114388331537, -12); (149612116378, -12); (19736293301, -11); (906709458446, -13); (-138178113356, -13); (499702707834, -14); (-125125282539, -14); (512330738404, -13); (108964802451, -12); (161496788801, -12); (172970158969, -12); (197316995051, -12); (784266614695, -13); (-966900777049, -14); (202673214628, -14); (501714658408, -13); (112755452138, -12); (153713569953, -12); (186557243778, -12); (173192182831, -12); (170493119175, -12); (555952586133, -13); (-414505362237, -14); (508917764723, -13); (110217759563, -12); (158770998194, -12); (178263400321, -12); (185824907302, -12); (150572491792, -12); (120296460533, -12); (253071340726, -13)].
Definition la_l8 := [(253071340725940647881328385774905, -34); (-910594330597007502136365210466435, -35); (628083114703047398060942073780760, -35); (-448301561305475144191331423530155, -35); (307849136832677988985383064911711, -35); (-191767525463695234092563511949444, -35); (972757664059263526724523824088790, -36); (-277508327116919222898446613780209, -36); (547593217675543202831907973850023, -34); (555952586133436176360889986065602, -34); (-136397962357816692530306620699761, -34); (814970885836055053604042748372916, -35); (-521535208914715338024336977463765, -35); (313975298546366894234500690115627, -35); (-156493491094894237579511140443043, -35); (442802304342237815626944634681052, -36); (485875359989128809431601473474389, -34); (120859524997173167441653743003485, -33); (784266614694718218344905504966503, -34); (-159751033618784314756701138556965, -34); (837173272022616378691032206439061, -35); (-464346586210447979012617007024473, -35); (222571477528489971831530140789318, -35); (-618805695250515367603304988539769, -36); (518655209705812345653120779649669, -34); (106193490148348406878869450082582, -33); (170671134274553621284710784603994, -33); (906709458445904957412876123192989, -34); (-160210413210250131687052177938008, -34); (724120656122226986180306301493881, -35); (-319781431036077032248274309542093, -35); (859236584264852689466901723348634, -36); (497550315609232768867987754316325, -34); (114388331537048005594660740308541, -33); (149612116377721373807178037978362, -33); (197362933010206004651280442432399, -33); (906709458445904957412876123192989, -34); (-138178113356099776157296836106934, -34); (499702707833882839330854713053803, -35); (-125125282539310498904640080998583, -35); (512330738404386449438689821435209, -34); (108964802451402335553862695805227, -33); (161496788801048123459107271063545, -33); (172970158968954827695664902574207, -33); (197316995051059422958245338494294, -33); (784266614694718218344905504966503, -34); (-966900777048593216947574579036441, -35); (202673214627524863310552980754224, -35); (501714658408458917606387325203000, -34); (112755452137636177647973108617551, -33); (153713569953479974726636094092144, -33); (186557243778328144862818594413235, -33); (173192182830820440946534797154869, -33); (170493119174725312922011763063277, -33); (555952586133436176360889986065602, -34); (-414505362236619070692512023002115, -35); (508917764723050487991641237687613, -34); (110217759562627971745453473389032, -33); (158770998193580596009906736112795, -33); (178263400320854211592721393989481, -33); (185824907302235742924488538873899, -33); (150572491791913169688371680255493, -33); (120296460532657310293541649317785, -33); (253071340725940647881328385774905, -34)].
Definition lb8 := [(5061426814518812957626567715498109505769704552584247852950184903237008938173539243014136965202250327907719466570663335385774701544617438393659865205680367923452666044120253659881532878646027339807178897337762461643650275129964770449733384052554053647341832332928873251786613012628524848232621159535553923686, -308); (1111905172266872352721779972131204422150654350256247823629546446468084072852245204268265711885989639210796330506061090615557187899262861209690913337266045288954306644768420201394699324438002192848601078741031626623597795114315785325659982794866772720302976409940335808322795168041735956177849676284942244513, -307); (1568533229389436436689811009933006566301644995013674688451319725374781359710867484808490381169642780247137873205389043081236234161327808028445312138234879497311251559388281279731643611010760215813233897360801911300647638449326254861592578999176578031209875868486280211992854817066543249507056258607721271998, -307); (1813418916891809914825752246385978060970730199471652702624115337833433673619533386621830210424142547751293849631483532764629107784947586922497788003931038421389175191431273152885503776686634857357447134164390215911389538923361482767774099800701243883752964488280496654505688713628868309491831949153781091084, -307); (1813418916891809914825752246385978060970730199471652702624115337833433673619533386621830210424142547751293849631483532764629107784947586922497788003931038421389175191431273152885503776686634857357447134164390215911389538923361482767774099800701243883752964488280496654505688713628868309491831949153781090983, -307); (1568533229389436436689811009933006566301644995013674688451319725374781359710867484808490381169642780247137873205389043081236234161327808028445312138234879497311251559388281279731643611010760215813233897360801911300647638449326254861592578999176578031209875868486280211992854817066543249507056258607721271946, -307); (1111905172266872352721779972131204422150654350256247823629546446468084072852245204268265711885989639210796330506061090615557187899262861209690913337266045288954306644768420201394699324438002192848601078741031626623597795114315785325659982794866772720302976409940335808322795168041735956177849676284942244531, -307); (5061426814518812957626567715498109505769704552584247852950184903237008938173539243014136965202250327907719466570663335385774701544617438393659865205680367923452666044120253659881532878646027339807178897337762461643650275129964770449733384052554053647341832332928873251786613012628524848232621159535553923785, -308)].
(* generated_coeffs_co.hpp:37, :127 *)
Definition lc_d8 := [(189420696335, -11); (-674595407993, -11); (136174313879, -10); (-22132553149, -9); (301354696018, -10); (-300535602846, -10); (167813564647, -10); (-247654183242, -11); (553044980217, -11); (-197123802551, -10); (394552306842, -10); (-618202807478, -10); (779162549778, -10); (-719170865716, -10); (405605506614, -10); (-949268636734, -11); (15363658868, -9); (-54123002333, -9); (105511418086, -9); (-157829742275, -9); (186583239525, -9); (-162508358369, -9); (906500150975, -10); (-232936433612, -10); (40031262635, -9); (-138963091718, -9); (263310898325, -9); (-377485157226, -9); (423961919654, -9); (-35332079978, -8); (194472041372, -9); (-51736618989, -9); (983082610019, -10); (-336410045088, -9); (621002616501, -9); (-85838310495, -8); (925006181743, -9); (-744496924144, -9); (404381959445, -9); (-109188285178, -9); (22968525606, -8); (-775805079808, -9); (139949183211, -8); (-187532610048, -8); (195309767699, -8); (-152759865051, -8); (819073480824, -9); (-222430881405, -9); (515019542668, -9); (-171944701492, -8); (303971234666, -8); (-396604428446, -8); (401290466143, -8); (-306261683487, -8); (162113250704, -8); (-440496988745, -9); (111620019082, -8); (-368802824601, -8); (640457927459, -8); (-816393419172, -8); (805510446748, -8); (-601438469251, -8); (314179531687, -8); (-851185828495, -9)].
Definition lc_l8 := [(189420696335189271657828654653861, -32); (-674595407993036488209951062870800, -32); (136174313879350418040936549908116, -31); (-221325531490283795436868444953001, -31); (301354696018019658502034889756472, -31); (-300535602846122435940536115165028, -31); (167813564646508372455003455249718, -31); (-247654183241751771237758983174295, -32); (553044980216853652419590406662562, -32); (-197123802550751263836487899296228, -31); (394552306841891380568621187216173, -31); (-618202807478371281601911743699649, -31); (779162549778229211076493331916534, -31); (-719170865716099859533199335243895, -31); (405605506613702209443694904285352, -31); (-949268636734022096857912912214024, -32); (153636588680378007070923695084634, -31); (-541230023330262407141346911644396, -31); (105511418085609196011982509718827, -30); (-157829742274905696136850531422093, -30); (186583239525287085530367282552769, -30); (-162508358369306670570515474868443, -30); (906500150975412720744334356732129, -31); (-232936433611634987137940144645674, -31); (400312626350487827169113069068526, -31); (-138963091717749303955679340327395, -30); (263310898325098970109714813246196, -30); (-377485157225711351710788662668533, -30); (423961919653899505365296310308562, -30); (-353320799779991340818918670597229, -30); (194472041372165191939031491810626, -30); (-517366189890014269411866892230046, -31); (983082610019279501589859959267112, -31); (-336410045088019414880440286648268, -30); (621002616500503204411870861288617, -30); (-858383104949994456155016957800032, -30); (925006181742545133267956989671112, -30); (-744496924143510302187173151808743, -30); (404381959444669130815027763903453, -30); (-109188285177905293839097960112073, -30); (229685256060390168995854989551005, -30); (-775805079807910415691813090436842, -30); (139949183211132587677399424419371, -29); (-187532610048063117680663992102973, -29); (195309767698607603208624092346102, -29); (-152759865050750421049019808417344, -29); (819073480823665014023919769799621, -30); (-222430881404536315490773459538561, -30); (515019542667772258585894866718456, -30); (-171944701491993249769633859315472, -29); (303971234666054242403153643714144, -29); (-396604428445512004427301545883963, -29); (401290466143223379746541841606209, -29); (-306261683487494962501114632454293, -29); (162113250704375359254959145124682, -29); (-440496988744971312113260400252528, -30); (111620019081785447632171833140071, -29); (-368802824601219497787439701475620, -29); (640457927458974619584256433769973, -29); (-816393419172268862194770757436753, -29); (805510446748427746148256560561915, -29); (-601438469250793627714333948880182, -29); (314179531687395626580896621586568, -29); (-851185828494625477369134849091671, -30)].
(* generated_coeffs.hpp:99, :369 *)
Definition la_d9 := [(203185970904, -13); (-739786856615, -14); (52220035921, -13); (-387345129174, -14); (283136945007, -14); (122660978881, -14); (-622964091649, -15); (177778462745, -15); (-196219418839, -14); (439655272265, -13); (451620401737, -13); (-113354640123, -13); (703476680173, -14); (-478827613102, -14); (-196440573995, -14); (987172103666, -15); (-280274237641, -15); (320336015198, -14); (390086533963, -13); (981815119598, -13); (651526741007, -13); (-137708339866, -13); (766417562464, -14); (277082889276, -14); (-136167198307, -14); (382532112918, -15); (-47135864678, -13); (416450870273, -13); (862554727725, -13); (141795216041, -12); (7808676926, -11); (-146189578759, -13); (-393283991504, -14); (185268620082, -14); (-510573474929, -15); (730042826218, -14); (399403728698, -13); (929433722727, -13); (124257110411, -12); (170000445255, -12); (825598387503, -13); (604823779069, -14); (-261929192529, -14); (696821310952, -15); (-138269067353, -13); (402546620679, -13); (916857523305, -13); (127534519309, -12); (160887124988, -12); (157455501876, -12); (651526741007, -13); (-785743161242, -14); (16285407845, -13); (169944372507, -12); (409174684184, -13); (893369082438, -13); (132269753941, -12); (152970178368, -12); (169907953632, -12); (141640812214, -12); (451620401737, -13); (-332833304574, -14); (149138771718, -12); (40459415718, -12); (909470444391, -13); (129078738413, -12); (158135732708, -12); (162288308051, -12); (125083344609, -12); (977219489136, -13); (203185970904, -13); (160046989812, -12); (411477676557, -13); (884713941466, -13); (134238188117, -12); (148873110258, -12); (179738635377, -12); (-114898678397, -13); (406860757492, -14); (-100789284654, -14); (7808676926, -11)].
Definition la_l9 := [(203185970903936029929730395276309, -34); (-739786856614878686542489503086324, -35); (522200359210005389185584360564744, -35); (-387345129174498055049537887338993, -35); (283136945006983986354937012363709, -35); (122660978881256074839466284462653, -35); (-622964091648914481159571486571450, -36); (177778462744798652780015293222430, -36); (-196219418839121917026118745577622, -35); (439655272265284041585412645645087, -34); (451620401737143510146180078107282, -34); (-113354640123350470465925464814319, -34); (703476680173468143903695814226945, -35); (-478827613101664029445945068615472, -35); (-196440573995350861710011819853350, -35); (987172103665947150853208009195396, -36); (-280274237640940717284308546381075, -36); (320336015198485576267209135093205, -35); (390086533962843337053406260551850, -34); (981815119598481585602972012795661, -34); (651526741007338655796857173546582, -34); (-137708339866085721988706377249966, -34); (766417562464213864225207092504704, -35); (277082889275901981606719881443306, -35); (-136167198307300388077294236226989, -35); (382532112918055676721205511905614, -36); (-471358646779919455507145952426565, -35); (416450870273228085684590957995216, -34); (862554727725037766071341170647431, -34); (141795216041145464700711349265044, -33); (780867692600007100171576016461109, -34); (-146189578759125574286313738589815, -34); (-393283991503873128187398305621736, -35); (185268620082252394849783525333888, -35); (-510573474928686025187960892672731, -36); (730042826218022637446431145744470, -35); (399403728698347433203974299378427, -34); (929433722727170869747695620130788, -34); (124257110410775669930284959188188, -33); (170000445255253483576298037267459, -33); (825598387503149407911312673217435, -34); (604823779069206122908647552112829, -35); (-261929192528838494553354639162238, -35); (696821310952462665548649117419158, -36); (-138269067352520635419828339752373, -34); (402546620678691503092248735433562, -34); (916857523305017059100089579837263, -34); (127534519308708711343304235894883, -33); (160887124987800614589386662816487, -33); (157455501875987742940010463718440, -33); (651526741007338655796857173546582, -34); (-785743161241945653106118565810966, -35); (162854078450287228060545300007680, -35); (169944372506609992233185841017218, -33); (409174684184281467032303876016429, -34); (893369082437627548783828076122610, -34); (132269753941421239776471552907850, -33); (152970178368016564271643111941290, -33); (169907953631646521876721985329642, -33); (141640812213802778205963981190748, -33); (451620401737143510146180078107282, -34); (-332833304574119817259518550924687, -35); (149138771718266738595278245149952, -33); (404594157180424073331660637620394, -34); (909470444390776165103955871080279, -34); (129078738412655170410976771864690, -33); (158135732708392639204576390747998, -33); (162288308050560041718713164519850, -33); (125083344609367677267515591103669, -33); (977219489135774888946609106523197, -34); (203185970903936029929730395276309, -34); (160046989811746400584810582165612, -33); (411477676557158920111340399479346, -34); (884713941466061780807381803681175, -34); (134238188116506462441245417765534, -33); (148873110257821193659850891834777, -33); (179738635376542439010893908502469, -33); (-114898678396777335413399145557277, -34); (406860757492492542210189855671329, -35); (-100789284653560258251301674425978, -35); (780867692600007100171576016461109, -34)].
Definition lb9 := [(4063719418078720598594607905526182533783086039120537535555383844034334315422603147278927735147128847889703665898151904729502439754697787976407068942237542688366698617478375366227906396906693415083369757862294840130561736984781583600166733738331829648764956763754215572385368484367608685041062300929274958263, -308); (9032408034742870202923601562145640475716891086602024224916795323567864527247313488229748865159985207380373398012889686133981342303150636158950504023727886874064869824341393527781852161444302385742696151645127705510991092406069950287067474000326174379041199841004356361185802976382450506817270969271951353767, -308); (1303053482014677311593714347093164248859201022186499759699985010598054078344456223238230465475087009136936927678188252566592019119179134353514649341351580883535426413412241186848366983562467365637561879471016372658946472489726208165400344195964288119115384062236832656096993377748448654782889874111191188599, -307); (1561735385200014200343152032922218327993774306309523227770055827995719486620096582850609609440031769261477386590823486558195909049437635729800185450739202942786294545378822992029820677861188408273280761122711012484633190401372563867896895146068122614410374678899807001137978163503327990909079771909754460237, -307); (1651196775006298815822625346434870244394053917863441672965482489292013101536911060720584530108339632149155958679768203577727387251196775006298815822625346434870244394053917863441672965482489292013101536911060720584530108339632149155958679768203577727387251196775006298815822625346434870244394053917863441912, -307); (1303053482014677311593714347093164248859201022186499759699985010598054078344456223238230465475087009136936927678188252566592019119179134353514649341351580883535426413412241186848366983562467365637561879471016372658946472489726208165400344195964288119115384062236832656096993377748448654782889874111191188832, -307); (9032408034742870202923601562145640475716891086602024224916795323567864527247313488229748865159985207380373398012889686133981342303150636158950504023727886874064869824341393527781852161444302385742696151645127705510991092406069950287067474000326174379041199841004356361185802976382450506817270969271951353150, -308); (4063719418078720598594607905526182533783086039120537535555383844034334315422603147278927735147128847889703665898151904729502439754697787976407068942237542688366698617478375366227906396906693415083369757862294840130561736984781583600166733738331829648764956763754215572385368484367608685041062300929274958472, -308); (1561735385200014200343152032922218327993774306309523227770055827995719486620096582850609609440031769261477386590823486558195909049437635729800185450739202942786294545378822992029820677861188408273280761122711012484633190401372563867896895146068122614410374678899807001137978163503327990909079771909754459123, -307)].
(* generated_coeffs_co.hpp:43, :133 *)
Definition lc_d9 := [(-112237853338, -8); (347268754318, -8); (-550445857588, -8); (652015683125, -8); (-643197481547, -8); (-395350621673, -8); (220696334712, -8); (-66040380391, -8); (54739301437, -7); (-19147778661, -7); (593253450524, -8); (-942891945106, -8); (112160748506, -7); (-111258798997, -7); (-691200810877, -8); (387170671922, -8); (-116248089934, -8); (952426619653, -8); (-327483030101, -8); (101638796249, -7); (-162076950809, -7); (193763029153, -7); (-193406549967, -7); (-121510136569, -7); (682903899734, -8); (-205508098275, -8); (166604029888, -7); (-561952492914, -8); (174776969539, -7); (-279808781112, -7); (33643742089, -6); (-338124379163, -7); (-214917442429, -7); (121187108868, -7); (-365413234968, -8); (293188339236, -7); (-968302778742, -8); (301910984813, -7); (-485558620493, -7); (587587621201, -7); (-594885400632, -7); (-38262862585, -6); (21645719529, -6); (-65386887877, -7); (519336175771, -7); (-167682775095, -7); (524330530607, -7); (-84762943622, -6); (103294652424, -6); (-105386284586, -6); (-685921313721, -7); (389248891361, -7); (-117782331295, -7); (926354588314, -7); (-292072223989, -7); (916242219839, -7); (-148960586248, -6); (182886590426, -6); (-1880713573, -4); (-12383809109, -5); (704840237189, -7); (-213608747191, -7); (166443455185, -6); (-512102317156, -7); (161218510225, -6); (-263703274243, -6); (326284408454, -6); (-338210338807, -6); (-225193491246, -6); (128522371261, -6); (-390048633662, -7); (301297051273, -6); (-904472628019, -7); (285824206502, -6); (-470505856564, -6); (586777442858, -6); (-612990305675, -6); (-412443878277, -6); (235971359585, -6); (-717037225379, -7); (549518144994, -6)].
Definition lc_l9 := [(-112237853337868513288907107645526, -29); (347268754317920871035372398717132, -29); (-550445857587937396403055263349257, -29); (652015683125366459336103590739386, -29); (-643197481547377991062193825459155, -29); (-395350621672641479866707490786092, -29); (220696334711661149238613812925524, -29); (-660403803910164190253513614032616, -30); (547393014369917938731633467451105, -29); (-191477786609897348069500567461242, -29); (593253450524017251620404172908804, -29); (-942891945106486055957473113593322, -29); (112160748505927621176994465520385, -28); (-111258798997027027580283018141203, -28); (-691200810877488854135449086463154, -29); (387170671922256012031694091415844, -29); (-116248089933961936452638348509672, -29); (952426619652708966338037876921974, -29); (-327483030100604689645901078300630, -29); (101638796248716098095955460530782, -28); (-162076950809326522794995892264033, -28); (193763029152507964379268457398588, -28); (-193406549967110950566737508912756, -28); (-121510136568717757634013558720536, -28); (682903899733875340451801297164452, -29); (-205508098274567793790800281634289, -29); (166604029888071800668455178466705, -28); (-561952492913534138380828473772158, -29); (174776969539292316746784233927286, -28); (-279808781111812526736951798623411, -28); (336437420889839618624080658745483, -28); (-338124379163001052065040276913372, -28); (-214917442429287831075796020230558, -28); (121187108868263514132987279902107, -28); (-365413234967576392736454480958414, -29); (293188339235766620363214791343809, -28); (-968302778741722783449462849303891, -29); (301910984813395516843831379764801, -28); (-485558620492776077813494786993552, -28); (587587621201311605941361365818662, -28); (-594885400631806917893939626024530, -28); (-382628625850438147421862613112536, -28); (216457195289864625526298524574780, -28); (-653868878769950693201587119162956, -29); (519336175770610834731735549177893, -28); (-167682775095437257779376737642712, -28); (524330530607269595290529903076262, -28); (-847629436219882766539763101371846, -28); (103294652424145919875800996872518, -27); (-105386284585534603977922480209642, -27); (-685921313721299725292170536960241, -28); (389248891361274873612267835585634, -28); (-117782331294643809532057729952861, -28); (926354588314248338888971540701060, -28); (-292072223989125978328169323534163, -28); (916242219838624851900101931442980, -28); (-148960586247857636814125942941953, -27); (182886590426046587476998603317927, -27); (-188071357300443331412811009728509, -27); (-123838091089782143371756533222059, -27); (704840237189235988262950232282445, -28); (-213608747190655853896722477930341, -28); (166443455185077615785348597621765, -27); (-512102317156049329952437533915722, -28); (161218510225010765418006721443706, -27); (-263703274242517254966817271494801, -27); (326284408454062978778420779941379, -27); (-338210338806811977476895279565946, -27); (-225193491246412638640223756123770, -27); (128522371261141512706899001074278, -27); (-390048633662451587451551833800248, -28); (301297051273118691583011497017185, -27); (-904472628019009693795394503462075, -28); (285824206502260230485150510192373, -27); (-470505856564211773755570665568190, -27); (586777442858425078030572164964192, -27); (-612990305674500963362393216828098, -27); (-412443878277218098880475480310091, -27); (235971359584509805484130827900914, -27); (-717037225379283423225298559933560, -28); (549518144993898378325377833743447, -27)].
(* generated_coeffs.hpp:117, :387 *)
Definition la_d10 := [(166678360772, -13); (-612068029234, -14); (439200373029, -14); (-334535050883, -14); (254756897028, -14); (-188262038694, -14); (13108146277, -13); (-820986353138, -15); (417243835668, -15); (-119093958462, -15); (360661525782, -13); (373628372876, -13); (-953137359189, -14); (607228446174, -14); (-430404581296, -14); (306851861087, -14); (-209411395745, -14); (12962496555, -13); (-654328115142, -15); (186135539, -12); (319991179775, -13); (812275701119, -13); (54771590629, -12); (-118776128915, -13); (687814639771, -14); (-450274329686, -14); (294087333141, -14); (-177613374657, -14); (884246091931, -15); (-24983875397, -14); (341639921791, -13); (713553690746, -13); (119207290549, -12); (673166798275, -13); (-130965195472, -13); (694886598384, -14); (-414845352723, -14); (239281424177, -14); (-116229795133, -14); (32456210553, -14); (327609312913, -13); (769022997036, -13); (104444079563, -12); (14656624555, -11); (738810561787, -13); (-131122091696, -13); (633145505482, -14); (-333810079768, -14); (155179916885, -14); (-424726034358, -15); (337603981887, -13); (731738754064, -13); (112881282056, -12); (1283019046, -10); (160874321527, -12); (738810561787, -13); (-119328858954, -13); (50991016949, -13); (-217662512836, -14); (57474086306, -14); (330111100488, -13); (758879725266, -13); (107150367016, -12); (138781813182, -12); (140813246374, -12); (160858631905, -12); (673166798275, -13); (-966410929077, -14); (337030550065, -14); (-828320024765, -15); (335855109083, -13); (738414284834, -13); (111319315005, -12); (131692486324, -12); (152264855654, -12); (14088396596, -11); (146510972547, -12); (54771590629, -12); (-650189553657, -14); (133655417683, -14); (331495366153, -13); (753800026904, -13); (108246931602, -12); (136727473612, -12); (144693593747, -12); (15206615817, -11); (128561075193, -12); (11907455485, -11); (373628372876, -13); (-273048042385, -14); (334547661128, -13); (743084307396, -13); (110364167611, -12); (133322545027, -12); (149644732744, -12); (145214543387, -12); (137978710164, -12); (105151177528, -12); (808463548676, -13); (166678360772, -13)].
Definition la_l10 := [(166678360771720343983922024733329, -34); (-612068029233502987025308987906619, -35); (439200373028852221698614553887794, -35); (-334535050882549470870888176133072, -35); (254756897027876354904962225738170, -35); (-188262038693525661085207791056827, -35); (131081462770308391842832788419797, -35); (-820986353138291127367521983463229, -36); (417243835667835720457601113273652, -36); (-119093958462027525114333774861831, -36); (360661525781943304506967868615967, -34); (373628372876451482864440849144243, -34); (-953137359188965945260757183913681, -35); (607228446174392218489428998019616, -35); (-430404581295939200907563270911149, -35); (306851861086753558695384716440183, -35); (-209411395745032284831574789258204, -35); (129624965549819963331444499418201, -35); (-654328115142468560893715735581344, -36); (186135539000451362540870049864093, -36); (319991179775146101939898453822534, -34); (812275701118607728515460679181319, -34); (547715906289955109988837335570408, -34); (-118776128915294264824282010922476, -34); (687814639770714478385800606631069, -35); (-450274329686185241607146970564758, -35); (294087333141394952634963014459878, -35); (-177613374657410074450312651393922, -35); (884246091931209019529692891224078, -36); (-249838753970020848317861205161996, -36); (341639921791087090319388879631186, -34); (713553690746355578848296638813347, -34); (119207290548758140477788951389364, -33); (673166798274990887728067303923673, -34); (-130965195471968997587876242976924, -34); (694886598383539031062731500230080, -35); (-414845352723169508779133417255612, -35); (239281424177035654040595767259466, -35); (-116229795133242643161918981684538, -35); (324562105530182860167670403121262, -36); (327609312912844373135061555894162, -34); (769022997036484359436613608768349, -34); (104444079563094207185198585546974, -33); (146566245550415954620379616976850, -33); (738810561786882175434732486628346, -34); (-131122091695853752390419769315554, -34); (633145505482068380026709671442490, -35); (-333810079767527560194800163458398, -35); (155179916885143634252135178552101, -35); (-424726034358327350430438151576489, -36); (337603981887023961472148430982424, -34); (731738754064388602303668180433277, -34); (112881282055666297599715468748666, -33); (128301904600177493745346364070310, -33); (160874321526961810325988474257225, -33); (738810561786882175434732486628346, -34); (-119328858954177770747661561921157, -34); (509910169489681481256888156710769, -35); (-217662512835813937077319104798624, -35); (574740863059631483278249357249694, -36); (330111100488138859366167345435446, -34); (758879725266227230045073596456940, -34); (107150367016220665457361509441487, -33); (138781813182229872633404794957291, -33); (140813246373541044776319182323368, -33); (160858631904573334845734121623362, -33); (673166798274990887728067303923673, -34); (-966410929076711848002148427528283, -35); (337030550065473868805850594751399, -35); (-828320024764640235154483016452740, -36); (335855109083140896451022661518279, -34); (738414284833590875533584769376246, -34); (111319315004565122742270593628021, -33); (131692486323584228019263830640136, -33); (152264855654238287503017967031317, -33); (140883965959669290303088491259358, -33); (146510972546527604028041661876982, -33); (547715906289955109988837335570408, -34); (-650189553657047627865789808928320, -35); (133655417682945860279455956441249, -35); (331495366153436174342435348968018, -34); (753800026904327651337818855644300, -34); (108246931602492822364453022119900, -33); (136727473612448500393929208677317, -33); (144693593746508899499992650161267, -33); (152066158170335827096022130034781, -33); (128561075193254255360719170804539, -33); (119074554849880681450375038953218, -33); (373628372876451482864440849144243, -34); (-273048042385026165391238191493083, -35); (334547661128060963218987387215277, -34); (743084307396224608524305687155750, -34); (110364167611129313125134989097545, -33); (133322545027295093627185132900537, -33); (149644732744311691697798575236237, -33); (145214543387097671537896875068287, -33); (137978710163823672254322342546065, -33); (105151177527702499780781321575204, -33); (808463548676253264431412597079149, -34); (166678360771720343983922024733329, -34)].
Definition lb10 := [(3333567215434406879678440494666589642893241716007907256434744080670603204204355088839275484252943891054502735726020966574375356312720188106965249365849702081724768185320009350562115775219676312122531491635909935932374028302205893104323922461818927859035878460414751305255764407014926276161421599489689192214, -308); (7472567457529029657288816982884866620127831983471368391773863437661932736331500547297363231736597595700287628052271816911722585337274880073568580059685547643990674144325593854767832198196668869699546008451023245419078093895787612891501717138926808784638210643962061414850750862954215051853862410493213795469, -308); (1095431812579910219977674671140815962293859352613385449404782718175999553264756406213419965886010963932956084364064438173833134540334737844154605921658328338552634957661038768386326413335513939123425505104416086660032136741627378125334207942674710355806705113645782738884464156650344327072498447310104743126, -307); (1346333596549981775456134607847346764298799692304418979002816381210767161595896383821133183546263803777979057251843491543464617346905726207782329423317211855828007216129980070864522264015172205648951488533571268767403142304199638287503455843374921407043144434266604021075209754440958176830309254227104384169, -307); (1477621123573764350869464973256691647105233585134268006771540148779979691085761646351782978968771083613585822006262791934092453947760029130009681712470934833047813593244420840216156525307679337045415256353319326437419508734373632987579772253875794572782741541649931968029674561911783363295663897464500566581, -307); (1477621123573764350869464973256691647105233585134268006771540148779979691085761646351782978968771083613585822006262791934092453947760029130009681712470934833047813593244420840216156525307679337045415256353319326437419508734373632987579772253875794572782741541649931968029674561911783363295663897464500571159, -307); (1346333596549981775456134607847346764298799692304418979002816381210767161595896383821133183546263803777979057251843491543464617346905726207782329423317211855828007216129980070864522264015172205648951488533571268767403142304199638287503455843374921407043144434266604021075209754440958176830309254227104387458, -307); (1095431812579910219977674671140815962293859352613385449404782718175999553264756406213419965886010963932956084364064438173833134540334737844154605921658328338552634957661038768386326413335513939123425505104416086660032136741627378125334207942674710355806705113645782738884464156650344327072498447310104745261, -307); (7472567457529029657288816982884866620127831983471368391773863437661932736331500547297363231736597595700287628052271816911722585337274880073568580059685547643990674144325593854767832198196668869699546008451023245419078093895787612891501717138926808784638210643962061414850750862954215051853862410493213757273, -308); (3333567215434406879678440494666589642893241716007907256434744080670603204204355088839275484252943891054502735726020966574375356312720188106965249365849702081724768185320009350562115775219676312122531491635909935932374028302205893104323922461818927859035878460414751305255764407014926276161421599489689198219, -308)].
(* generated_coeffs_co.hpp:49, :139 *)
Definition lc_d10 := [(308663498962, -12); (-129519460574, -11); (336383134545, -11); (-746704170044, -11); (151437435757, -10); (-281149391888, -10); (447273120244, -10); (-515468873805, -10); (348175242682, -10); (-892396510146, -11); (-152106932316, -11); (414309699845, -11); (-367385821193, -11); (-525448732422, -11); (2895742032, -8); (-697158024027, -10); (113808925825, -9); (-125650392502, -9); (843362434534, -10); (-249169449878, -10); (-526633494681, -11); (140368589575, -10); (-115048220161, -10); (-191837058143, -10); (926464892649, -10); (-203805901382, -9); (304096737469, -9); (-313084697416, -9); (204840965826, -9); (-624290389159, -10); (-846011269871, -11); (164702023862, -10); (139265076842, -10); (-12339719457, -8); (335075694205, -9); (-610239318307, -9); (814289832541, -9); (-782039663126, -9); (49722285009, -8); (-152585493915, -9); (285784472551, -11); (-43875369634, -9); (200987582636, -9); (-554782865358, -9); (112085134677, -8); (-175545047972, -8); (212977846411, -8); (-192832159817, -8); (119424411089, -8); (-36607564461, -8); (777416181475, -10); (-35000229101, -8); (940823596306, -9); (-197778018208, -8); (340101353213, -8); (-478703644976, -8); (539440129008, -8); (-46588833649, -7); (282143834788, -8); (-861535950371, -9); (360492913314, -9); (-1423928114, -6); (329903903313, -8); (-61121016414, -7); (951930549545, -8); (-124165342876, -7); (132243365873, -7); (-110032836784, -7); (65409944556, -7); (-198816433762, -8); (123584509505, -8); (-46307691585, -7); (997927495265, -8); (-171686773711, -7); (250134235245, -7); (-308494547948, -7); (314566605105, -7); (-254112563894, -7); (148762787364, -7); (-450118644685, -8); (366576412838, -8); (-133376168579, -7); (275061866443, -7); (-450445026383, -7); (625472188502, -7); (-73924928646, -6); (728456222724, -7); (-574672199843, -7); (332181637381, -7); (-100085626471, -7); (994744870156, -8); (-355029301051, -7); (710457171228, -7); (-112274005155, -6); (150333185554, -6); (-171852487297, -6); (164767956597, -6); (-127498319899, -6); (729200349228, -7); (-218864866025, -7)].
Definition lc_l10 := [(308663498961631026031881865242030, -33); (-129519460573904943059833301204681, -32); (336383134544788852438529409244359, -32); (-746704170044427746933960115448499, -32); (151437435756946248189634635449127, -31); (-281149391887591556339007816076186, -31); (447273120243530286916403110123634, -31); (-515468873805166148961187150677284, -31); (348175242682022478269417410442943, -31); (-892396510145890931804424272341933, -32); (-152106932316001656932644627222569, -32); (414309699845371759042237492965208, -32); (-367385821192568772370895218239498, -32); (-525448732421518124189362989691954, -32); (289574203199844939428757685333244, -31); (-697158024026765904996763945666390, -31); (113808925824721959721824339102807, -30); (-125650392502351261417690115156468, -30); (843362434533681409954913797456249, -31); (-249169449878014075117731344672385, -31); (-526633494681142659471648119129946, -32); (140368589575309157022481604922877, -31); (-115048220160715032307716640923302, -31); (-191837058142913483836687343384099, -31); (926464892649257350052048396786868, -31); (-203805901381860080905538160396722, -30); (304096737468838014740891355954222, -30); (-313084697415744701649690745096602, -30); (204840965825993155812373419194243, -30); (-624290389158604040865189955149818, -31); (-846011269871093486352194047763295, -32); (164702023861949795207766402014867, -31); (139265076841727536915765470666095, -31); (-123397194570246125519243170882719, -30); (335075694204977653061339312382972, -30); (-610239318307469666369935085933951, -30); (814289832541277426685848972431508, -30); (-782039663125601240519034248168020, -30); (497222850089700272049617700860058, -30); (-152585493914559652773335371060707, -30); (285784472550783551917547849417534, -32); (-438753696339561295210592034975556, -31); (200987582635969955580020905860345, -30); (-554782865357743737530636623746483, -30); (112085134677455923251668003085761, -29); (-175545047972129367083603615962384, -29); (212977846410861009094504171277803, -29); (-192832159817453391748064265601582, -29); (119424411089397690238278884452828, -29); (-366075644610117982120052424655885, -30); (777416181475056337752960580482337, -31); (-350002291010293233944344670884804, -30); (940823596305963446328250098587337, -30); (-197778018208407358392101455031970, -29); (340101353213078732973952488829011, -29); (-478703644976452766628704488351170, -29); (539440129008342807746359827290781, -29); (-465888336489919222727529221280239, -29); (282143834788203439830286633420178, -29); (-861535950370525629430105676132539, -30); (360492913314043511040813650075515, -30); (-142392811399765419831489307341748, -29); (329903903312874653623889348398743, -29); (-611210164140015418317892897524908, -29); (951930549545402670297476096790194, -29); (-124165342876240907789621454443256, -28); (132243365873405392224373807179247, -28); (-110032836784145556791440616748530, -28); (654099445560036367116052969209892, -29); (-198816433762081553280799483059560, -29); (123584509505230268338200809262116, -29); (-463076915849990167661402604148850, -29); (997927495264787796926807251645398, -29); (-171686773711309567708413919324494, -28); (250134235244642024188568402915594, -28); (-308494547947818774616981834599881, -28); (314566605104800963565067233180769, -28); (-254112563894491269343951676599564, -28); (148762787363621865328715632402732, -28); (-450118644684681692197554071357729, -29); (366576412838323097308358700204842, -29); (-133376168579216587115105569166796, -28); (275061866443475331078820192421684, -28); (-450445026382851341258526643183340, -28); (625472188502458861947875407496028, -28); (-739249286459727980822982497866117, -28); (728456222724125375283222912651760, -28); (-574672199843386587043422968211126, -28); (332181637380880397557633187350058, -28); (-100085626471046149353832741235895, -28); (994744870156147099682116899706432, -29); (-355029301050862728476065450171737, -28); (710457171227982398663692077122774, -28); (-112274005155216469195745764552298, -27); (150333185554406292572119478246475, -27); (-171852487296796822008684905431833, -27); (164767956596840185044710217266846, -27); (-127498319898787130754741663939841, -27); (729200349227832179139832007069631, -28); (-218864866025216127598478375161925, -28)].
(* generated_coeffs.hpp:136, :406 *)
Definition la_d11 := [(13917141779, -12); (-514325562983, -14); (373560374914, -14); (-290037905138, -14); (227274215265, -14); (-175240116264, -14); (130248911732, -14); (-909279657712, -15); (570136062283, -15); (-289875324978, -15); (827488930846, -16); (301142391948, -13); (313950923662, -13); (-810562697908, -14); (526282127354, -14); (-383743668169, -14); (285354676448, -14); (-207783291715, -14); (143267781288, -14); (-891466711988, -15); (451184930916, -15); (-128498936997, -15); (267179838503, -13); (682542809172, -13); (465725527319, -13); (-102895248153, -13); (612667324767, -14); (-418053753705, -14); (29106679541, -13); (-195573987509, -14); (119821656507, -14); (-600947942995, -15); (170372117196, -15); (285266689062, -13); (599560307356, -13); (101365041154, -12); (58298441148, -12); (-116536925867, -13); (64383812978, -13); (-409164865278, -14); (262061890572, -14); (-156237108007, -14); (771530960015, -15); (-21706539084, -14); (273528599994, -13); (646238924303, -13); (888021849344, -13); (126937527092, -12); (657011361276, -13); (-121240615804, -13); (621926257425, -14); (-363063338386, -14); (206324037555, -14); (-992886275646, -15); (275899729895, -15); (281917210619, -13); (614771890632, -13); (959986109029, -13); (111095774316, -12); (143076752307, -12); (682312716945, -13); (-116744800519, -13); (550110797963, -14); (-285350543903, -14); (131299566925, -14); (-35743750378, -14); (275583838282, -13); (637830710081, -13); (910818650883, -13); (12022751568, -11); (125183009681, -12); (148586604969, -12); (657011361276, -13); (-103406447965, -13); (434292052948, -14); (-18337076978, -13); (481423558707, -15); (280513489489, -13); (620186537724, -13); (947074765439, -13); (11397626339, -11); (135493920908, -12); (130024162091, -12); (143055964842, -12); (58298441148, -12); (-82199356897, -13); (283415399685, -14); (-692385348154, -15); (276639114409, -13); (633911326754, -13); (919468888988, -13); (118552622171, -12); (128491604301, -12); (140643080926, -12); (125275599007, -12); (126886407111, -12); (465725527319, -13); (-54640961847, -13); (111629970782, -14); (279627824951, -13); (623389998015, -13); (940365721759, -13); (115164204483, -12); (133480105172, -12); (133608996624, -12); (135239708937, -12); (111334061022, -12); (101250732443, -12); (313950923662, -13); (-227995563674, -14); (27751534665, -12); (630800600574, -13); (925749694016, -13); (117506161954, -12); (130099783138, -12); (138214944552, -12); (129129530102, -12); (119497261347, -12); (894095017147, -13); (679334403623, -13); (13917141779, -12)].
Definition la_l11 := [(139171417790434166206884301106371, -34); (-514325562983490553945482672729184, -35); (373560374914085018725131470439065, -35); (-290037905138315003781828070850379, -35); (227274215264998537669600797675868, -35); (-175240116264082742702346957094253, -35); (130248911731822927183376576527350, -35); (-909279657711640651057229985874300, -36); (570136062283444316355989598062838, -36); (-289875324978482038437992853765253, -36); (827488930845835189972911298261979, -37); (301142391948244556850291647703452, -34); (313950923662261561586735748059850, -34); (-810562697907984411509038761874716, -35); (526282127353501507194118571645874, -35); (-383743668169242759363413819373032, -35); (285354676447749860209788071218239, -35); (-207783291714634649529155042045045, -35); (143267781287657313277759445234306, -35); (-891466711988145401994499020386626, -36); (451184930916069171735273863699948, -36); (-128498936996653753822983719663434, -36); (267179838502661811451222492270490, -34); (682542809171542158094247997671962, -34); (465725527319335628565244103579140, -34); (-102895248152872145428450144855953, -34); (612667324766953732872518254748621, -35); (-418053753704864073577283170383163, -35); (291066795410457775012630543616084, -35); (-195573987509097941918238015793114, -35); (119821656507352216046396088240308, -35); (-600947942995045366467377875974433, -36); (170372117195620967172569989546359, -36); (285266689062404033539906138636098, -34); (599560307356048885110634313934399, -34); (101365041153570591950231026008482, -33); (582984411479976199796309262107938, -34); (-116536925866713892045122531529432, -34); (643838129780483330857548404618236, -35); (-409164865278154504328097688232838, -35); (262061890572086323919627935494752, -35); (-156237108006700551652476566069921, -35); (771530960015176748020373869400951, -36); (-217065390840345289252973780190160, -36); (273528599993796140716452683309802, -34); (646238924302517439343240111126972, -34); (888021849343891269062705363844844, -34); (126937527092484729329395593358849, -33); (657011361275616655451722174726273, -34); (-121240615804220011533673101424194, -34); (621926257425001908979939369156868, -35); (-363063338386324112523093675663918, -35); (206324037554684363328318467300617, -35); (-992886275645834511167361281996532, -36); (275899729894848114109410456411519, -36); (281917210618671959125369757792893, -34); (614771890632044979378652513022305, -34); (959986109028957617417890032486379, -34); (111095774316370167736965659831943, -33); (143076752307042779412913905065101, -33); (682312716944751576786208820840855, -34); (-116744800519194483225694701198462, -34); (550110797962507222229619258964432, -35); (-285350543902863602874018253281001, -35); (131299566924781437948189830973959, -35); (-357437503780362671160115558014999, -36); (275583838281919851272674497648628, -34); (637830710080981468285145108939666, -34); (910818650883202820797656360428218, -34); (120227515679858481084492789178227, -33); (125183009680873312000545041253686, -33); (148586604969372316510609074310591, -33); (657011361275616655451722174726273, -34); (-103406447964894893701337409372614, -34); (434292052947799880677828433134351, -35); (-183370769779943161697686150072715, -35); (481423558707219169731591890294133, -36); (280513489489271785306298340014644, -34); (620186537724371355693267757425691, -34); (947074765439341312295735863765272, -34); (113976263390274376720065573066640, -33); (135493920907904876133625411827583, -33); (130024162091145482048666280121989, -33); (143055964841794720294856688098198, -33); (582984411479976199796309262107938, -34); (-821993568970346623718220529265396, -35); (283415399684742380628371821853018, -35); (-692385348153570112613753642335545, -36); (276639114408912122742042902317279, -34); (633911326754473576838145274879445, -34); (919468888987936035525848598334249, -34); (118552622171086219378444232579519, -33); (128491604301018753340218129509094, -33); (140643080925998956093014595872003, -33); (125275599007453793761619252397768, -33); (126886407111282454502106866907183, -33); (465725527319335628565244103579140, -34); (-546409618470190349207765015522619, -35); (111629970782065209625461099422524, -35); (279627824950834869951998439409377, -34); (623389998015362431456118757482701, -34); (940365721758552711150433197362146, -34); (115164204483118666826484257969245, -33); (133480105172269677585635985365705, -33); (133608996624472816755143883455989, -33); (135239708936815758683978573138985, -33); (111334061022460224887320666705129, -33); (101250732442946969828139208334575, -33); (313950923662261561586735748059850, -34); (-227995563673762244365230454907090, -35); (277515346650022497223795690914481, -34); (630800600574307943557851424657353, -34); (925749694015836813966928311177651, -34); (117506161953706880610319082407462, -33); (130099783137805101818510669179981, -33); (138214944551591142784265233739114, -33); (129129530102473345713648426968496, -33); (119497261347378389997080133130091, -33); (894095017147262755257975060114373, -34); (679334403622872178568019763392619, -34); (139171417790434166206884301106371, -34)].
Definition lb11 := [(2783428355808683324137686022127428936425781284844907417419214283707770364036877194184561103615942290514816051412098708190275209020083112138706369669946131602263963976445518335027593457915282108125517064430347406274930475969847833116715479671789283290001676284882402020598332412064650522786595366999838649929, -308); (6279018473245231231734714961197005009880789569770175033196700540895728756623563881734382085702726519893252927254226096799205344196887530366454421736818783845029627373137946730275761132329961154549923116484756244185944799397352964047644813684119746638522545362702622816993328385577088305572474624500402346001, -308); (9314510546386712571304882071582794584564237402010170589075320208693617400439275123466537925898979306555048226948316771578090858914929762220299383065939347312280624209515840934905415742775842642556421894044185756202981543499482980755215591384366794265870062953223864741002051729105634796951304991090914408754, -308); (1165968822959952399592618524215875697158990861584792545136598610609661066094404979770199742191308422082755545958393659056460075397530405066716801900686948907456050545001272966885358112865536710540720609396623450418616930633944786983404616712861527978233867875944031287023021734156805703631246159429325724799, -307); (1314022722551233310903444349452545976863823388015722781900276857427564016697726267762084985085133529795661676174452842965407829979694110243258331138561076703003782281711144423407123132558598793145555357937587807020563458413423137226307761851043295500100566805803589548995366258893070623819371691932276299487, -307); (1364625433889503153572417641681710945780209849473918737988002057266126530195794265058334322403586472850542114611378680642749906819170888434957699026963096227165491234755304019373283442547511811581075650339719603788867858131927395996660065924135188204452273716342980412244481508550772620036689300758564834854, -307); (1314022722551233310903444349452545976863823388015722781900276857427564016697726267762084985085133529795661676174452842965407829979694110243258331138561076703003782281711144423407123132558598793145555357937587807020563458413423137226307761851043295500100566805803589548995366258893070623819371691932276297309, -307); (1165968822959952399592618524215875697158990861584792545136598610609661066094404979770199742191308422082755545958393659056460075397530405066716801900686948907456050545001272966885358112865536710540720609396623450418616930633944786983404616712861527978233867875944031287023021734156805703631246159429325736902, -307); (9314510546386712571304882071582794584564237402010170589075320208693617400439275123466537925898979306555048226948316771578090858914929762220299383065939347312280624209515840934905415742775842642556421894044185756202981543499482980755215591384366794265870062953223864741002051729105634796951304991090914500390, -308); (6279018473245231231734714961197005009880789569770175033196700540895728756623563881734382085702726519893252927254226096799205344196887530366454421736818783845029627373137946730275761132329961154549923116484756244185944799397352964047644813684119746638522545362702622816993328385577088305572474624500402413194, -308); (2783428355808683324137686022127428936425781284844907417419214283707770364036877194184561103615942290514816051412098708190275209020083112138706369669946131602263963976445518335027593457915282108125517064430347406274930475969847833116715479671789283290001676284882402020598332412064650522786595366999838632041, -308)].
(* generated_coeffs_co.hpp:55, :145 *)
Definition lc_d11 := [(128345332953, -11); (-427998592189, -11); (759540310133, -11); (-998511988159, -11); (964315306443, -11); (-373259896712, -11); (-113877379351, -10); (353405245192, -10); (-51382487296, -9); (388781588539, -10); (-109618771957, -10); (946855400714, -11); (-320195893685, -10); (585099602936, -10); (-815126344765, -10); (908904633697, -10); (-734833239415, -10); (201397550094, -10); (550922277423, -10); (-102260776728, -9); (81865351046, -9); (-261790420342, -10); (343884653395, -10); (-11561589478, -8); (208794768527, -9); (-285272151779, -9); (309624966821, -9); (-245293015237, -9); (827160656156, -10); (117368627412, -9); (-229778103817, -9); (184536351626, -9); (-611257417957, -10); (981642087045, -10); (-326845019292, -9); (578987007651, -9); (-765920285624, -9); (789287057295, -9); (-570306499383, -9); (127375115413, -9); (350218080115, -9); (-578398965785, -9); (446040533667, -9); (-148340168051, -9); (242387267698, -9); (-797053187627, -9); (137714428637, -8); (-174467226072, -8); (166414867572, -8); (-999371664152, -9); (-109975135997, -9); (115848291481, -8); (-154472402365, -8); (112375508259, -8); (-369910829783, -9); (534715125331, -9); (-173014242785, -8); (289143487108, -8); (-34433957796, -7); (288359356477, -8); (-104371434623, -8); (-155952460031, -8); (369785201817, -8); (-41670925246, -7); (286578391916, -8); (-929331967018, -9); (105999977058, -8); (-335202194888, -8); (532935525135, -8); (-571585605147, -8); (354872722732, -8); (119739105197, -8); (-69936782225, -7); (110433416496, -7); (-110543183018, -7); (72550991605, -7); (-231788548182, -8); (185221199941, -8); (-56370019716, -7); (817334866549, -8); (-684149639921, -8); (121626382977, -10); (115867893354, -7); (-239341825885, -7); (309661760813, -7); (-285389966541, -7); (180537852301, -7); (-569266002711, -8); (264883579595, -8); (-73888148794, -7); (820657220819, -8); (-135922725682, -9); (-190944939848, -7); (46264469826, -6); (-715617634814, -7); (823451278496, -7); (-715556590942, -7); (439910849983, -7); (-137193140296, -7); (21700357791, -7); (-36284258944, -7); (-584591594461, -8); (348078356075, -7); (-851410796169, -7); (146658654494, -6); (-196651578541, -6); (209626444936, -6); (-174478586821, -6); (104902908768, -6); (-324201813326, -7); (-379110948405, -8); (211988863786, -7); (-668624933941, -7); (153553395661, -6); (-278611852098, -6); (414080236041, -6); (-509452248331, -6); (514808611701, -6); (-414803483335, -6); (245049163905, -6); (-751690046371, -7)].
Definition lc_l11 := [(128345332952758638472288061054870, -32); (-427998592189246821868579703423822, -32); (759540310132982248202445534335490, -32); (-998511988158930735688704814103022, -32); (964315306442921509382222921834109, -32); (-373259896711843755102743414595024, -32); (-113877379351042301783325295897493, -31); (353405245192025745190283676696196, -31); (-513824872960459634688807488599685, -31); (388781588538839926989489633801774, -31); (-109618771956958129011353074516667, -31); (946855400714185898488325952178676, -32); (-320195893684608126926094452117956, -31); (585099602935733868374666854736711, -31); (-815126344764751339253072628503265, -31); (908904633696954667667601458004572, -31); (-734833239414790400405967856236068, -31); (201397550093682996091618900017761, -31); (550922277423269191366197018516891, -31); (-102260776727703517546480457592070, -30); (818653510460428483581539615826271, -31); (-261790420341875388281364518924191, -31); (343884653395326647045295826763132, -31); (-115615894779967058778804072514129, -30); (208794768527332050442446429740071, -30); (-285272151778686369266917924027362, -30); (309624966820755386297855761414213, -30); (-245293015237485983980680960011360, -30); (827160656156003978780546512910213, -31); (117368627411720552656430239515185, -30); (-229778103816755236050049277015067, -30); (184536351625756306150145103173708, -30); (-611257417957347417038799491557245, -31); (981642087044809666153011777142133, -31); (-326845019291852074844546988125066, -30); (578987007651069395956124102015683, -30); (-765920285624104942237323690568176, -30); (789287057294551770149674884561639, -30); (-570306499382819969209081268434451, -30); (127375115412781210001811354097518, -30); (350218080115231155203588280168738, -30); (-578398965784749717693957375289188, -30); (446040533667407034955589715059274, -30); (-148340168050881728306592539339857, -30); (242387267698402354685457149516223, -30); (-797053187627089960370490093348008, -30); (137714428637131384619061017580381, -29); (-174467226072033933326779021593049, -29); (166414867571715485488836209363398, -29); (-999371664152259082336553294386942, -30); (-109975135997096613691374995900275, -30); (115848291481260314480300479308183, -29); (-154472402364900957359043058313676, -29); (112375508258960195699197431385103, -29); (-369910829782762456155496950710708, -30); (534715125331020604690216436688136, -30); (-173014242784561768581350336343365, -29); (289143487107758038662995214518402, -29); (-344339577960129826069157639209579, -29); (288359356477478899424394870243484, -29); (-104371434622715769798887599931306, -29); (-155952460031363836346566813882216, -29); (369785201817331709029131398747340, -29); (-416709252459750024422874650199143, -29); (286578391916326923340945844525493, -29); (-929331967017572789898170185848028, -30); (105999977057688228527850175406768, -29); (-335202194887872848328960360255806, -29); (532935525135131998837772759463773, -29); (-571585605146951640499154079492212, -29); (354872722732407029681302069507190, -29); (119739105196781147592684027661500, -29); (-699367822250038438685361991863175, -29); (110433416496017877201971492641257, -28); (-110543183018267922725574060781839, -28); (725509916049836714746123437452386, -29); (-231788548181722775502590137011911, -29); (185221199940557377997990283674517, -29); (-563700197159849696870547564971453, -29); (817334866548751666571237586307839, -29); (-684149639920781736675770050122247, -29); (121626382976842242870652030827970, -31); (115867893354497751508898874865886, -28); (-239341825885079552404892451955567, -28); (309661760813318737265521894653051, -28); (-285389966541228482175531139894932, -28); (180537852301434253230723709446891, -28); (-569266002711195394365424810140268, -29); (264883579595469107522468053115144, -29); (-738881487939947103075880702225140, -29); (820657220819326676144272419076572, -29); (-135922725682346782672537935672878, -30); (-190944939848027236223578348313847, -28); (462644698260124908354192614131596, -28); (-715617634813680661992011453304126, -28); (823451278495799800101519031708294, -28); (-715556590941751967093944774337891, -28); (439910849982812081634601762105666, -28); (-137193140295823967081982997874904, -28); (217003577909641615268507118864615, -29); (-362842589440264810496155405655121, -29); (-584591594461132273896165459115946, -29); (348078356074572550234074719325037, -28); (-851410796168832689768154707794604, -28); (146658654494340123776337488942887, -27); (-196651578540822095145685223960773, -27); (209626444936447962791734361911676, -27); (-174478586821245263019506660357624, -27); (104902908767890774274461504876178, -27); (-324201813325788608478130673345233, -28); (-379110948404625746765730409545708, -29); (211988863785728157157296974666778, -28); (-668624933941434517056692975492409, -28); (153553395660651827239907018023886, -27); (-278611852098453149398535833869695, -27); (414080236040913445592530257469735, -27); (-509452248331011747473182990506778, -27); (514808611701425689455612479338871, -27); (-414803483334919804313513607250947, -27); (245049163905091856060132231617549, -27); (-751690046370535616281162613019829, -28)].
(* generated_coeffs.hpp:156, :426 *)
Definition la_d12 := [(117938340966, -13); (-437990215768, -14); (321056964126, -14); (-252868076292, -14); (202324519895, -14); (124774475193, -14); (-93049983663, -14); (650624788775, -15); (-408237882558, -15); (20761510848, -14); (-592710487057, -16); (-160735902089, -14); (255198232326, -13); (267348314988, -13); (-696570366256, -14); (458737722346, -14); (-341487831326, -14); (-198873604147, -14); (146425936526, -14); (-101552961889, -14); (633880729667, -15); (-321341337252, -15); (915875660364, -16); (261580117231, -14); (226415082465, -13); (581230577547, -13); (400195821358, -13); (-896632804601, -14); (544880489817, -14); (278156916562, -14); (-199435710193, -14); (136062625077, -14); (-840553839985, -15); (423460056141, -15); (-12030834911, -14); (-382839826778, -14); (241748261227, -13); (510550484294, -13); (871038538724, -13); (507918566808, -13); (-103577470217, -13); (-390204370621, -14); (26638869907, -13); (-176593366081, -14); (107205559232, -14); (-534534766346, -15); (151074627301, -15); (588867969619, -14); (231788873634, -13); (550336735249, -13); (763035605835, -13); (110596236161, -12); (583731341346, -13); (591690882966, -14); (-367597498519, -14); (231791162581, -14); (-13672957437, -13); (670629185517, -15); (-188000196715, -15); (-110754199818, -13); (233514110135, -13); (543232717216, -13); (782519909929, -13); (104765642235, -12); (11120113308, -11); (622867614534, -13); (-103795246551, -13); (480193492467, -14); (-245976665589, -14); (112275870417, -14); (-304349193693, -15); (135655440636, -12); (2377566839, -11); (527990338121, -13); (814064600154, -13); (992658017357, -13); (120422243254, -12); (135648942888, -12); (583731341346, -13); (-901252279942, -14); (373560368819, -14); (-156401052723, -14); (408780829862, -15); (118656614077, -12); (23436593566, -12); (54004197764, -12); (789671086794, -13); (103349647022, -12); (114082381278, -12); (118684843211, -12); (127104015291, -12); (507918566808, -13); (-706468960073, -14); (241461456827, -14); (-587157929441, -15); (128475566613, -12); (237079765424, -13); (530462029415, -13); (808797181117, -13); (100223087111, -12); (118740625371, -12); (128401921174, -12); (111297463371, -12); (110550041408, -12); (400195821358, -13); (-465339475702, -14); (946159946801, -15); (121791953741, -12); (234960806272, -13); (537910043349, -13); (79405283542, -12); (10259924298, -11); (115282008904, -12); (121957721734, -12); (120161146582, -12); (969963361381, -13); (870048679342, -13); (267348314988, -13); (-193215503937, -14); (126562258948, -12); (23646939242, -12); (532620478892, -13); (804474021542, -13); (100933088573, -12); (117676768106, -12); (126180881928, -12); (11472302307, -11); (104112394124, -12); (768285946304, -13); (578495651553, -13); (117938340966, -13); (123325778155, -12); (238920173869, -13); (523469042935, -13); (824989309276, -13); (967817784369, -13); (127125792924, -12); (-110819177291, -13); (554513518951, -14); (-318192887322, -14); (178717327876, -14); (-853608723971, -15); (236257179789, -15); (622867614534, -13)].
Definition la_l12 := [(117938340966279567986539903712543, -34); (-437990215767931650940188692918276, -35); (321056964125654262004469232623711, -35); (-252868076291527559325483047108311, -35); (202324519894856845571760672436639, -35); (124774475192659582311909076184889, -35); (-930499836629974148333740147760258, -36); (650624788775465133900270947845369, -36); (-408237882558168112866492596697974, -36); (207615108480287514624040502392411, -36); (-592710487056506905538129963004732, -37); (-160735902088665663692347356756028, -35); (255198232326244639441836509717834, -34); (267348314988296077400636795484991, -34); (-696570366255593528084233870896311, -35); (458737722346434400703031480933751, -35); (-341487831325726315216580833366991, -35); (-198873604147400184383034336299982, -35); (146425936525797332056119445694672, -35); (-101552961889071285353932174117125, -35); (633880729666708085426064346671315, -36); (-321341337251878490974152992793925, -36); (915875660363567404988113849493164, -37); (261580117231290944435531656186262, -35); (226415082464546978695105146203535, -34); (581230577546837157157340098137834, -34); (400195821358365565836631323858398, -34); (-896632804601375189900412174147714, -35); (544880489816575571543655014114527, -35); (278156916561874812407426225463822, -35); (-199435710192794323160270551931218, -35); (136062625076553272030386945228062, -35); (-840553839984532063258567090571879, -36); (423460056141347174662230642939509, -36); (-120308349110379280703786321047807, -36); (-382839826778209094726230524498038, -35); (241748261226971991223159086687208, -34); (510550484293886763756662871780821, -34); (871038538724015915546922006176071, -34); (507918566807664804372661139524496, -34); (-103577470216968143616942058302073, -34); (-390204370620793343508578200225354, -35); (266388699069817929130618710749775, -35); (-176593366081374114507112195757116, -35); (107205559231517493201514834145065, -35); (-534534766345622524447744620771830, -36); (151074627300977163206610358729114, -36); (588867969618710894147918871599956, -35); (231788873633936492342183449770824, -34); (550336735248898118758263652719249, -34); (763035605834845887509628990891626, -34); (110596236160954295848669502387033, -33); (583731341345887021902124747312195, -34); (591690882965931097780777409955512, -35); (-367597498519267301626859146921164, -35); (231791162580606885793696566969272, -35); (-136729574370243207975475896064002, -35); (670629185517022286304630351349835, -36); (-188000196714650100120473944846696, -36); (-110754199817737917021409005241805, -34); (233514110134668871562570409586137, -34); (543232717216298316487578493835701, -34); (782519909929121000782088530511676, -34); (104765642234753235587278744603025, -33); (111201133079663467133798800192759, -33); (622867614533506962501406090107378, -34); (-103795246551256818945668362263593, -34); (480193492467387405421263983863473, -35); (-245976665588796403560160874505178, -35); (112275870416866186970650353585504, -35); (-304349193692679899622505931686133, -36); (135655440635822029787650595060661, -33); (237756683899705636974284546873552, -34); (527990338121421931938227287456483, -34); (814064600153755452470810237323196, -34); (992658017357268920165952622352065, -34); (120422243254370077396693540931651, -33); (135648942888475184202422118545656, -33); (583731341345887021902124747312195, -34); (-901252279942133497413727448213377, -35); (373560368818852441636336568251690, -35); (-156401052723059639569900617492683, -35); (408780829862264363089635765426139, -36); (118656614077042081522473443921920, -33); (234365935659549364341013703837794, -34); (540041977640048380045751037177699, -34); (789671086793579382353111164302289, -34); (103349647022346702019603349862470, -33); (114082381278479225089118762354941, -33); (118684843210514283558802029305476, -33); (127104015290874218742119155292646, -33); (507918566807664804372661139524496, -34); (-706468960072847838736593584592755, -35); (241461456827053910446107191891601, -35); (-587157929441285525007927926212295, -36); (128475566612909325935367000023729, -33); (237079765423662928780117670635563, -34); (530462029415178683054651284540586, -34); (808797181116576452305848318622514, -34); (100223087110767428154228358452619, -33); (118740625371105347612027654981751, -33); (128401921174483483447543523266456, -33); (111297463371011648664988399321294, -33); (110550041407546712773536349646376, -33); (400195821358365565836631323858398, -34); (-465339475702450023560665071678529, -35); (946159946801215727797466122154982, -36); (121791953741082644376206955766837, -33); (234960806272195568568091693575592, -34); (537910043349110939711015120897920, -34); (794052835420064050819002004250082, -34); (102599242980423673728071549646070, -33); (115282008903919431059863755005492, -33); (121957721734388483055925901459613, -33); (120161146582434667532590757796109, -33); (969963361380686168675019130955617, -34); (870048679342290484481686034806426, -34); (267348314988296077400636795484991, -34); (-193215503936855034687567022927485, -35); (126562258948175394344111561384475, -33); (236469392419615642878617937388090, -34); (532620478891789279655033185946057, -34); (804474021542312812801927573683775, -34); (100933088572757495740631956957054, -33); (117676768105807378528758689610199, -33); (126180881927588049137204691589036, -33); (114723023070228835924707342738073, -33); (104112394124448236467787058375982, -33); (768285946304165705472815724454424, -34); (578495651553385319895292460261809, -34); (117938340966279567986539903712543, -34); (123325778154774796677162127259627, -33); (238920173869485934969304866741947, -34); (523469042934905536104208555611431, -34); (824989309275610772029278735167313, -34); (967817784368590868203195880662645, -34); (127125792924303086274991785688798, -33); (-110819177291206372873693770391854, -34); (554513518951393724662614926968001, -35); (-318192887322027471274651669812568, -35); (178717327876101308911741172051196, -35); (-853608723970616168630490286571955, -36); (236257179789026441050939783894818, -36); (622867614533506962501406090107378, -34)].
Definition lb12 := [(2358766819325591359730798074250853015851453699742354478025267350190486057601935533541295353770726804830805083779836928983374020411956649836923182554954904287898983942924799482987843527447262899850134759596589655622699535535471062660618413315900801711163516844413331872839165251841905557280534747658952049363, -308); (5346966299765921548012735909699811210728508673516244000256302105140949681374878827026865904815822870678817966657057208058516525848177542242400432616345980025057195223824602414677757679288039553526246090355168977352124478564154654839032337991792586494517680687259140445064114056862149091434004043401933437884, -308); (8003916427167311316732626477167953593600586524543208895494977207897711258664557534082827631852886526353743854840640131362188193044132452233751550121704755606839934510329989639280049023187956999193622469436293168029530833871431912276492224352291981419423054702333644373883129114799256420125015717268485193300, -308); (1015837133615329608745322279048991882532590736372950731992972828988228162552364218975721975323026162155802146684316299824806856759510506645395521009479971184282844512263036914013842622285192334062003237906703194993765260763086402967227078611639639816697787726307117503919496430322080719716015841511860996273, -307); (1167462682691774043804249494624390281297049860998774373652617489107460000397058376403395132542818452333693782198544344169492713942044580483098751942369037676662407258974437519440608139640152124479915439114678864539582211551500939765327353657687904635420334994509445640978376565411882027708071828275579509954, -307); (1245735229067013925002812180214756054152304512848094156976755015581397137286440215155784003090211765324167380589385929165292555368018248440198210518850427147075136861054586412850984215082329596201080991039812760366217042888306894289831270164673918585371452055782825185923486161915706145691956879379622278147, -307); (1167462682691774043804249494624390281297049860998774373652617489107460000397058376403395132542818452333693782198544344169492713942044580483098751942369037676662407258974437519440608139640152124479915439114678864539582211551500939765327353657687904635420334994509445640978376565411882027708071828275579580542, -307); (1015837133615329608745322279048991882532590736372950731992972828988228162552364218975721975323026162155802146684316299824806856759510506645395521009479971184282844512263036914013842622285192334062003237906703194993765260763086402967227078611639639816697787726307117503919496430322080719716015841511861010094, -307); (8003916427167311316732626477167953593600586524543208895494977207897711258664557534082827631852886526353743854840640131362188193044132452233751550121704755606839934510329989639280049023187956999193622469436293168029530833871431912276492224352291981419423054702333644373883129114799256420125015717268485555961, -308); (5346966299765921548012735909699811210728508673516244000256302105140949681374878827026865904815822870678817966657057208058516525848177542242400432616345980025057195223824602414677757679288039553526246090355168977352124478564154654839032337991792586494517680687259140445064114056862149091434004043401933242592, -308); (2358766819325591359730798074250853015851453699742354478025267350190486057601935533541295353770726804830805083779836928983374020411956649836923182554954904287898983942924799482987843527447262899850134759596589655622699535535471062660618413315900801711163516844413331872839165251841905557280534747658952155014, -308); (1245735229067013925002812180214756054152304512848094156976755015581397137286440215155784003090211765324167380589385929165292555368018248440198210518850427147075136861054586412850984215082329596201080991039812760366217042888306894289831270164673918585371452055782825185923486161915706145691956879379622334800, -307)].
(* generated_coeffs_co.hpp:61, :151 *)
Definition lc_d12 := [(150896077412, -7); (-535369962449, -7); (104840018463, -6); (-159648115779, -6); (206416266093, -6); (24063681228, -5); (-221694604513, -6); (181871372682, -6); (-128190789961, -6); (704686334161, -7); (-209858179728, -7); (-235265376985, -6); (282309710189, -7); (-988742923647, -7); (190492731233, -6); (-28593571315, -5); (365799749635, -6); (421386052189, -6); (-386996777548, -6); (31682727553, -5); (-223020143639, -6); (122501067276, -6); (-364683105543, -7); (-413942100365, -6); (522929454372, -7); (-181404117583, -6); (345209211856, -6); (-512414881608, -6); (650048796101, -6); (741649553947, -6); (-679389050542, -6); (555284598528, -6); (-390466901886, -6); (214343197882, -6); (-63790395958, -6); (-731362613537, -6); (962790595494, -7); (-331595471002, -6); (625079376283, -6); (-919779734335, -6); (115906680911, -5); (131218860073, -5); (-119958355742, -5); (97918234372, -5); (-687993472264, -6); (377490508124, -6); (-112318934465, -6); (-129801526868, -5); (17666747621, -5); (-605131078376, -6); (113240317652, -5); (-165491902823, -5); (20744321324, -4); (233399790247, -5); (-213030202563, -5); (173718563371, -5); (-121986836032, -5); (669099863655, -6); (-199053374229, -6); (-231451210878, -5); (323688526141, -6); (-110404861075, -5); (205435061393, -5); (-298617958277, -5); (372748402299, -5); (417347601998, -5); (-380463483665, -5); (310035173784, -5); (-217624598501, -5); (119342856128, -5); (-355005196822, -6); (-414666509404, -5); (592937913578, -6); (-201583779872, -5); (373442579298, -5); (-540548849317, -5); (67251296863, -4); (750142154126, -5); (-683252460415, -5); (556519704923, -5); (-390556535904, -5); (214156821151, -5); (-63702357063, -5); (-746424021682, -5); (108691158953, -5); (-368592382924, -5); (680492317256, -5); (-981761177562, -5); (121830303656, -4); (135509532815, -4); (-123356567159, -4); (10045251031, -3); (-704919324159, -5); (386537354895, -5); (-114980368732, -5); (-134982536049, -4); (199503130797, -5); (-675237260049, -5); (124330683466, -4); (-178918818747, -4); (221591209757, -4); (245977340808, -4); (-223852172645, -4); (182283647034, -4); (-127927556566, -4); (701553026226, -5); (-2087000277, -3); (-245196218827, -4); (366820807126, -5); (-123968295393, -4); (227795837138, -4); (-327176607046, -4); (404619523742, -4); (448570675948, -4); (-408205367204, -4); (332455559164, -4); (-23336967003, -3); (128003396087, -4); (-380831010819, -5); (-447324030942, -4); (675806427148, -5); (-228131018672, -4); (418551735986, -4); (-600291548365, -4); (741623253858, -4); (821651942035, -4); (-747851670328, -4); (609273182191, -4); (-427827180432, -4); (234724629113, -4); (-698449874558, -5); (-819458979639, -4); (12477486577, -3); (-420842554702, -4); (771243003397, -4); (-110500370395, -3); (136428323356, -3); (151140394156, -3); (-137618632141, -3); (112171290232, -3); (-788005368712, -4); (432475425636, -4); (-128711893215, -4); (-150714352933, -3)].
Definition lc_l12 := [(150896077411712637269975142488895, -28); (-535369962448724198284308071615527, -28); (104840018462781547348036721819706, -27); (-159648115779110749515600044623695, -27); (206416266092993910682466902354441, -27); (240636812280141031376886408547024, -27); (-221694604512852050523499542549964, -27); (181871372682065601862679548023660, -27); (-128190789961230705865007889834257, -27); (704686334160615646654576884379590, -28); (-209858179728091629386479821537013, -28); (-235265376984656954350963862383055, -27); (282309710188627028076798864952847, -28); (-988742923646512853511486590311750, -28); (190492731233182078104052256756147, -27); (-285935713149721807389532238094851, -27); (365799749635401750401805738605998, -27); (421386052189298637802999433702304, -27); (-386996777548152534200202392113113, -27); (316827275529666095806793857583104, -27); (-223020143638842234341065056512531, -27); (122501067276339187117666580726675, -27); (-364683105542663351688543163561243, -28); (-413942100364932102776912570109661, -27); (522929454372233683188543258498666, -28); (-181404117583281461136661201335661, -27); (345209211856214789343718256790637, -27); (-512414881607542186743159657852767, -27); (650048796101148521280028148578376, -27); (741649553947451000720663956016747, -27); (-679389050542365348376025075675632, -27); (555284598527743555179896396350405, -27); (-390466901885730330409861250193067, -27); (214343197882029445452989319784134, -27); (-637903959580075569147367791212019, -28); (-731362613536603802204071569135921, -27); (962790595493672265466667908700224, -28); (-331595471001569431723774421192094, -27); (625079376282918736400997238882680, -27); (-919779734334581250944395153099911, -27); (115906680911111420578963056418508, -26); (131218860072695799894125014795477, -26); (-119958355742390954388163889863727, -26); (979182343719706841341031417535276, -27); (-687993472264430223281691457064647, -27); (377490508124443768159328075669239, -27); (-112318934465189244250238135987820, -27); (-129801526867685687500325814339232, -26); (176667476210372237170210744928684, -27); (-605131078376183526801240654979736, -27); (113240317651827413623386695659344, -26); (-165491902823324577640260773488461, -26); (207443213240388174917999268372081, -26); (233399790247409471920242322273323, -26); (-213030202563331732317437379723867, -26); (173718563370674578835155434140680, -26); (-121986836032178567581898579164192, -26); (669099863654972011885512037890708, -27); (-199053374229345164874164099371301, -27); (-231451210878320056171036774411408, -26); (323688526141194669372628160700051, -27); (-110404861075333826556529136651965, -26); (205435061393382689365170679251001, -26); (-298617958277422843463166408598374, -26); (372748402298736546890103297975769, -26); (417347601997897283190062117969177, -26); (-380463483665179926265865788847026, -26); (310035173783738143590473150300052, -26); (-217624598501114329338920159290354, -26); (119342856127630604641924732802731, -26); (-355005196821837363139233251313260, -27); (-414666509404121435036989172285978, -26); (592937913577826219002901289714693, -27); (-201583779871611734980514594560753, -26); (373442579298146991753137569162797, -26); (-540548849317012111548344069274888, -26); (672512968630238708546681463168500, -26); (750142154125735209514337989671080, -26); (-683252460415096072238680978056538, -26); (556519704922937583420712137562504, -26); (-390556535903779412010753363085849, -26); (214156821151205508031582179978465, -26); (-637023570630328985256742945870523, -27); (-746424021681935573729225193425737, -26); (108691158952958555078838992972864, -26); (-368592382923536253479715231233254, -26); (680492317255784111657666954242044, -26); (-981761177562096121801164839405927, -26); (121830303656060615066788679852713, -25); (135509532814989528483366014342238, -25); (-123356567159237114544016062401250, -25); (100452510309818774654357948295580, -25); (-704919324158584086195962097179524, -26); (386537354895069795573845615908684, -26); (-114980368731510075882795250347902, -26); (-134982536049212982386562992437886, -25); (199503130796916227362742953344889, -26); (-675237260049050487156858673215134, -26); (124330683465505689069926351582500, -25); (-178918818746786295571712155063310, -25); (221591209757328536627495098489617, -25); (245977340807546992095063027236574, -25); (-223852172645236225301885337663312, -25); (182283647034072501129245484467366, -25); (-127927556566330915026709524155804, -25); (701553026225615558725419530822330, -26); (-208700027699722278076129564275001, -26); (-245196218826693977177235201805281, -25); (366820807125670614428577271924756, -26); (-123968295392537683567812659004069, -25); (227795837138188649383712588249625, -25); (-327176607045688469710918700238267, -25); (404619523742295002719107271305204, -25); (448570675947578613566743085665823, -25); (-408205367204375772041106130430976, -25); (332455559164270620608099662348981, -25); (-233369670029808216249566460816808, -25); (128003396087192342794296941461207, -25); (-380831010819175456620149416980085, -26); (-447324030941647081814208342856777, -25); (675806427148100004564895806218890, -26); (-228131018672245712597686860432526, -25); (418551735986358172923218517609432, -25); (-600291548365117788746480576164039, -25); (741623253858293769372819976902042, -25); (821651942034578271131653018026574, -25); (-747851670328275326650352087627687, -25); (609273182190745587993423504536959, -25); (-427827180431680426865683684961523, -25); (234724629113263035968975641232769, -25); (-698449874558103115114829740774126, -26); (-819458979639261655645198582173746, -25); (124774865770276099141477113854943, -25); (-420842554701771512598430774577837, -25); (771243003396692450092868318410581, -25); (-110500370394579456660422390226123, -24); (136428323355684144407955941895708, -24); (151140394155561773061306624280383, -24); (-137618632140711930567817502465051, -24); (112171290232194631794338702852702, -24); (-788005368711531526217271002889828, -25); (432475425636328033835857959818826, -25); (-128711893214967941379531241294378, -25); (-150714352932616521810930426075388, -24)].
(* generated_coeffs.hpp:177, :447 *)
Definition la_d13 := [(101210011913, -13); (-377307158533, -14); (278561575606, -14); (-221827038405, -14); (180306469115, -14); (-146428618398, -14); (117219434523, -14); (-913582925477, -15); (682707775015, -15); (-477846825328, -15); (299962625259, -15); (-152576299212, -15); (435604600184, -16); (219001283175, -13); (230303749594, -13); (-604331982545, -14); (402367675567, -14); (-304249472623, -14); (238203498777, -14); (-186724640081, -14); (143647464828, -14); (-106442244601, -14); (740852231417, -15); (-463345539788, -15); (235139088197, -15); (-670516615042, -16); (194299477196, -13); (500695755433, -13); (347183775549, -13); (-786303206731, -14); (485274615855, -14); (-348400333661, -14); (260906242968, -14); (-195372076841, -14); (142329508753, -14); (-979733532988, -15); (60835505903, -14); (-307359452503, -15); (874442385103, -16); (207461084445, -13); (439800566806, -13); (755663734122, -13); (445364951905, -13); (-92209168426, -13); (535465088569, -14); (-365522679985, -14); (260442900235, -14); (-184200989476, -14); (124460812211, -14); (-763750235757, -15); (383103892798, -15); (-108591577935, -15); (198907528983, -13); (474094387268, -13); (661938972977, -13); (969774293977, -13); (519540118842, -13); (-100633070333, -13); (553442491475, -14); (-358522008286, -14); (240894627536, -14); (-157902463821, -14); (951119931435, -15); (-471841291131, -15); (132996200941, -15); (205039757595, -13); (450910064519, -13); (715749421922, -13); (848574338709, -13); (113150057093, -12); (565707950657, -13); (-103514560922, -13); (539400389969, -14); (-329262769908, -14); (20503890674, -13); (-119902884865, -14); (584799095209, -15); (-163447833222, -15); (200379395811, -13); (468004290851, -13); (678786934545, -13); (918730747241, -13); (989622717612, -13); (123214025135, -12); (581378883077, -13); (-100724350036, -13); (494575200722, -14); (-280008434311, -14); (15580616554, -13); (-739679166273, -15); (204062801555, -15); (204054502159, -13); (454759508237, -13); (706357839585, -13); (870226013136, -13); (107200651468, -12); (107747586232, -12); (126627232708, -12); (565707950657, -13); (-924203332466, -14); (421555651003, -14); (-213818708227, -14); (969743466943, -15); (-261973376815, -15); (201090061817, -13); (4653259121, -11); (684856351785, -13); (906520150192, -13); (101499077493, -12); (116726810214, -12); (110741351701, -12); (123204897165, -12); (519540118842, -13); (-790443901671, -14); (324285781214, -14); (-134868880796, -14); (351249484407, -15); (203505939606, -13); (456776460261, -13); (702005053457, -13); (878283822589, -13); (105750033663, -12); (110537161129, -12); (119931003415, -12); (107786939246, -12); (113128940611, -12); (445364951905, -13); (-612961830229, -14); (208069323826, -14); (-504106061862, -15); (201545581441, -13); (463681093714, -13); (688284000509, -13); (90052723914, -12); (102484728681, -12); (1150953109, -10); (113666714186, -12); (116625593468, -12); (990552776099, -13); (969360224483, -13); (347183775549, -13); (-40088256244, -13); (812054663012, -15); (203090540442, -13); (458256108307, -13); (699001006497, -13); (883321381496, -13); (104972446214, -12); (111705115483, -12); (118143023016, -12); (110759555144, -12); (106950518495, -12); (850493136253, -13); (754800749353, -13); (230303749594, -13); (-165812593487, -14); (201984419226, -13); (462133262181, -13); (691367924846, -13); (895508372063, -13); (103225315993, -12); (114055173057, -12); (11510358227, -11); (114605876315, -12); (102104959077, -12); (91291260765, -12); (666511393538, -13); (498338215042, -13); (101210011913, -13)].
Definition la_l13 := [(101210011913289698800053980502465, -34); (-377307158532573117639653956478696, -35); (278561575606280540506391769715011, -35); (-221827038404612727470909369006428, -35); (180306469115291924767648064980046, -35); (-146428618397597206373219195398718, -35); (117219434523376612789533432940761, -35); (-913582925476946914279833786076516, -36); (682707775014527070994806526617237, -36); (-477846825328057044954904151545178, -36); (299962625259445461030372797434857, -36); (-152576299212045336495614490534017, -36); (435604600183718814871431827825288, -37); (219001283175295116522258243792181, -34); (230303749594321119786054439884493, -34); (-604331982544823445948205359739159, -35); (402367675567341024867616113409459, -35); (-304249472622634548710370846496858, -35); (238203498776763745077474812162596, -35); (-186724640081131399249109864113950, -35); (143647464828385926714290321692637, -35); (-106442244601130699290888262870222, -35); (740852231417186149520785772376544, -36); (-463345539787940887382989363911043, -36); (235139088196600369947814289646073, -36); (-670516615041579007988664565837295, -37); (194299477196462080138986265725847, -34); (500695755432635923426235131209137, -34); (347183775549468096159004442172179, -34); (-786303206730868570634754109820751, -35); (485274615855356234460137723834130, -35); (-348400333660768447587493382716106, -35); (260906242967983428705086502545689, -35); (-195372076841097163727673691924709, -35); (142329508753345627404375086579584, -35); (-979733532987650877168571875648996, -36); (608355059029741647181307412082681, -36); (-307359452503456643979932083820092, -36); (874442385102884182445865602618302, -37); (207461084445201329864662811434272, -34); (439800566806027462386107262155192, -34); (755663734121840834838611362790007, -34); (445364951904864345700116729990245, -34); (-922091684260183471157923038803508, -35); (535465088568774835817836341051524, -35); (-365522679985131663224119457647232, -35); (260442900234894375524301082650519, -35); (-184200989476170492739286362165069, -35); (124460812210767416235581390797846, -35); (-763750235756611259863351602996257, -36); (383103892798337037853784379416009, -36); (-108591577934743383496452469989929, -36); (198907528982510605465179672081930, -34); (474094387268283867543203296582884, -34); (661938972977494572894970911918178, -34); (969774293976857866965958632022815, -34); (519540118842221255781308048265132, -34); (-100633070332503760077136218506629, -34); (553442491474951858506263543603369, -35); (-358522008285720277410984531537971, -35); (240894627535956901766224577323685, -35); (-157902463820694369584986417058936, -35); (951119931434866800772660663683767, -36); (-471841291130799781952598265558731, -36); (132996200941124552109905578322486, -36); (205039757594727670060681545998433, -34); (450910064519209141654412218524936, -34); (715749421921594625399608006277203, -34); (848574338709379334336662073674475, -34); (113150057093106559270427818381431, -33); (565707950657243096030225465099442, -34); (-103514560922495229752504808065757, -34); (539400389969417161174279062738912, -35); (-329262769907881380106091466035036, -35); (205038906740336088057757139497844, -35); (-119902884864579980320098025955255, -35); (584799095209111448818836774843047, -36); (-163447833221850412977632958606346, -36); (200379395811026762773049698442838, -34); (468004290851373722985012660116026, -34); (678786934544959035977382705879556, -34); (918730747240793403196288054251039, -34); (989622717612276794983509717814398, -34); (123214025135056194245784393996810, -33); (581378883077184775486473788172090, -34); (-100724350036075750397393009769219, -34); (494575200721657165791063787158657, -35); (-280008434310647117960545942705492, -35); (155806165539771563406261784648011, -35); (-739679166273148341290378034704055, -36); (204062801555263482705826256209194, -36); (204054502158797901729884290590994, -34); (454759508236551125083920512020555, -34); (706357839585394190350018686939883, -34); (870226013135695082594457746030706, -34); (107200651467523064957322524313377, -33); (107747586231754447594302302392499, -33); (126627232707686478072545238440994, -33); (565707950657243096030225465099442, -34); (-924203332466230811416620872840460, -35); (421555651003493570635713863060150, -35); (-213818708226584330815991219328461, -35); (969743466943309791769666124404934, -36); (-261973376814827246057358499350264, -36); (201090061817168152079008905221705, -34); (465325912099950237391634862424573, -34); (684856351784587524310282277707520, -34); (906520150191798128358732101686384, -34); (101499077493084682138599363879790, -33); (116726810214305821980154938335268, -33); (110741351700687436512232122198384, -33); (123204897164698995213758714870551, -33); (519540118842221255781308048265132, -34); (-790443901671291755657251720423246, -35); (324285781214416194230379724261791, -35); (-134868880796416279710944168138988, -35); (351249484406879213492828892300010, -36); (203505939605926831435072485704830, -34); (456776460260658869193571035974826, -34); (702005053456502304916642400374320, -34); (878283822588651949776675320900705, -34); (105750033663205956083654473274677, -33); (110537161129099675450802082193383, -33); (119931003415288271729535952210890, -33); (107786939245760870847866729609373, -33); (113128940611046085867840840041061, -33); (445364951904864345700116729990245, -34); (-612961830229046425206024784456496, -35); (208069323826147771860016176137939, -35); (-504106061862193226455485042934161, -36); (201545581441476513417662095402312, -34); (463681093713676806011908200607187, -34); (688284000508638775846195810223531, -34); (900527239139605200171919178736980, -34); (102484728680910794882217858787231, -33); (115095310899859590843321829939135, -33); (113666714185757120810243892608961, -33); (116625593468056303681920026847049, -33); (990552776098906888116602324146851, -34); (969360224482815548463708870962565, -34); (347183775549468096159004442172179, -34); (-400882562439936838541262514401512, -35); (812054663011731746112169527908313, -36); (203090540441620976608096625570768, -34); (458256108306676235872630736872525, -34); (699001006496815601191838777983468, -34); (883321381495556829905025602256725, -34); (104972446214455558149170492281729, -33); (111705115483164759938902189802962, -33); (118143023016248269089785856275557, -33); (110759555143680981755270344898262, -33); (106950518494670596643365318117995, -33); (850493136252994588913471848639544, -34); (754800749353418536912829420318273, -34); (230303749594321119786054439884493, -34); (-165812593487157189221502827872504, -35); (201984419226395678785236529177105, -34); (462133262180762692937065024674326, -34); (691367924846341737707705156370009, -34); (895508372063009261849782501495942, -34); (103225315993429724085266803126409, -33); (114055173056925566120324926805965, -33); (115103582270203188969399423305010, -33); (114605876315424591269777284973875, -33); (102104959077291331908585129003226, -33); (912912607650189964147324396881133, -34); (666511393538308138267369707372856, -34); (498338215041899551336074275416855, -34); (101210011913289698800053980502465, -34)].
Definition lb13 := [(2024200238265793976001079610049303002099327287249443406752330375249723025639635524721040621652658087716278288373004235222367267761966145393543092258091307212270049169012453524830216381661573748082985020756908333775318038438851462722464701087310284638618909637595959437142674399783276475337158478666123803064, -308); (4606074991886422395721088797689856046184199993111841954419577366979686486381646314594890787786598643442321030901405577026403779110306650662875127274655613997643891316892901300482977236198562381364960875264334990244393961533209879827810468788136014759300074413146820910935306051339159966328620881309061141179, -308); (6943675510989361923180088843443573381093135913164911382317750825288626076744476786259077142730281293120484213806299496579198091119620002807017459072511229099210219098216616789689231701182646332857409924459621425573667123234008772141813304105504691015605753990636549243846714887332099786266680517547440614369, -308); (8907299038097286914002334599804899775640632533050825149339722014457253474937436174735847561115635075348352486003719730489174416209469371209588087083016935391997226609884624983801453498885147006101991862149767967272890365366640366758806541268481095589057487164392255566414840896418064427859280742706180743704, -308); (1039080237684442511562616096530263816932913045997517746095555599582692717825422161302977640233059632879913203525845364208391315623438849799929464533098355974741793639737843471215412226948692092224736373838674240303060252449148286617938654119687184863925650297407115420233940855454854403250101484847196847519, -307); (1131415901314486192060450930198883092173788688077785099324842743857878315602499855209131593331569648605632944553763418213278984039381714451247719075936011618720533013628467937573570258930580934698804320475423366869493356175836449191057496742720295584806874474461320207827947718598384769971661555765327175824, -307); (1162757766154369550972947576344179740783137386533989930593327196723800120403517006913610310213706817103420500023896627293230689834086437483040879644276247672851069454466057862661259264655868052471449074845678242281638885035488432091828695225298621902018505415108811712208315604919001522398125794729191249933, -307); (1131415901314486192060450930198883092173788688077785099324842743857878315602499855209131593331569648605632944553763418213278984039381714451247719075936011618720533013628467937573570258930580934698804320475423366869493356175836449191057496742720295584806874474461320207827947718598384769971661555765326548185, -307); (1039080237684442511562616096530263816932913045997517746095555599582692717825422161302977640233059632879913203525845364208391315623438849799929464533098355974741793639737843471215412226948692092224736373838674240303060252449148286617938654119687184863925650297407115420233940855454854403250101484847196999882, -307); (8907299038097286914002334599804899775640632533050825149339722014457253474937436174735847561115635075348352486003719730489174416209469371209588087083016935391997226609884624983801453498885147006101991862149767967272890365366640366758806541268481095589057487164392255566414840896418064427859280742706179183318, -308); (6943675510989361923180088843443573381093135913164911382317750825288626076744476786259077142730281293120484213806299496579198091119620002807017459072511229099210219098216616789689231701182646332857409924459621425573667123234008772141813304105504691015605753990636549243846714887332099786266680517547443278613, -308); (4606074991886422395721088797689856046184199993111841954419577366979686486381646314594890787786598643442321030901405577026403779110306650662875127274655613997643891316892901300482977236198562381364960875264334990244393961533209879827810468788136014759300074413146820910935306051339159966328620881309060101292, -308); (2024200238265793976001079610049303002099327287249443406752330375249723025639635524721040621652658087716278288373004235222367267761966145393543092258091307212270049169012453524830216381661573748082985020756908333775318038438851462722464701087310284638618909637595959437142674399783276475337158478666123836934, -308)].
(* generated_coeffs_co.hpp:67, :157 *)
Definition lc_d13 := [(618176128297, -11); (-214088030062, -10); (412032239688, -10); (-634925321578, -10); (863571897811, -10); (-10737632351, -8); (122748985605, -9); (-125821025934, -9); (106229079053, -9); (-577526517733, -10); (280796017296, -11); (181708135972, -10); (-683976860739, -11); (293715050623, -10); (-10245868763, -8); (199730079683, -9); (-313287981524, -9); (435283609025, -9); (-553316659533, -9); (644617014805, -9); (-671512946001, -9); (592414474957, -9); (-405397306015, -9); (192298188004, -9); (-577355397268, -10); (105021886374, -10); (109796819223, -9); (-383654439846, -9); (749646798473, -9); (-117790902594, -8); (163498888026, -8); (-206508918374, -8); (237327152366, -8); (-242828240822, -8); (212501151597, -8); (-150914992576, -8); (827974187706, -9); (-338771145183, -9); (825077078987, -10); (364401954969, -9); (-127180909826, -8); (247821640893, -8); (-38727161127, -7); (532359355928, -8); (-662191504359, -8); (745281646658, -8); (-745189638293, -8); (641705041467, -8); (-458776010388, -8); (263593729272, -8); (-116660756702, -8); (300946214002, -9); (111079189233, -8); (-386630184334, -8); (749329352089, -8); (-116064586261, -7); (157450210292, -7); (-192341396905, -7); (211741547851, -7); (-206903178434, -7); (175063965183, -7); (-124738653003, -7); (729245935786, -8); (-332868586832, -8); (877860102844, -9); (316102032178, -8); (-109643493825, -7); (211101464575, -7); (-323641647395, -7); (432782882637, -7); (-519019534222, -7); (559222707454, -7); (-534643405854, -7); (444450167831, -7); (-314155750375, -7); (184524160238, -7); (-852839532119, -8); (226979462605, -8); (84900076635, -7); (-293368868751, -7); (560852395004, -7); (-850721387735, -7); (112128402232, -6); (-132074219978, -6); (139424996684, -6); (-130566051911, -6); (106640585243, -6); (-745533496964, -7); (436733110434, -7); (-202383420851, -7); (539859790906, -8); (217010715115, -7); (-746946450483, -7); (141774993514, -6); (-212768931787, -6); (276492598491, -6); (-320079347135, -6); (331357217692, -6); (-304161301075, -6); (243983247241, -6); (-16825531019, -5); (977563411377, -7); (-451061141708, -7); (12000312948, -6); (531344532336, -7); (-182171241919, -6); (343302081579, -6); (-50982080728, -5); (65340889606, -5); (-743800778543, -6); (755513715009, -6); (-67984917708, -5); (535020381473, -6); (-362827156967, -6); (207941321012, -6); (-949179017131, -7); (250663344108, -7); (125260221645, -6); (-427775383558, -6); (800421970058, -6); (-117637400052, -5); (148728940127, -5); (-1665182927, -3); (165958903838, -5); (-14630193603, -4); (11272779417, -4); (-748623139641, -6); (420421710975, -6); (-188363541185, -6); (490781763737, -7); (285435621257, -6); (-970970137533, -6); (180390490932, -5); (-262377417869, -5); (32722539117, -4); (-36026861396, -4); (352078183805, -5); (-303572068995, -5); (228233082018, -5); (-147506860792, -5); (803962169861, -6); (-349385312719, -6); (889358951921, -7); (630588341479, -6); (-213655549975, -5); (394075433118, -5); (-567147201365, -5); (697477615211, -5); (-754579103787, -5); (722003332146, -5); (-607070801759, -5); (442837746844, -5); (-275764092178, -5); (143532802815, -5); (-591985665722, -6); (144295605122, -6); (13533945182, -4); (-456673844274, -5); (836015671941, -5); (-118996320457, -4); (144187945516, -4); (-153059464351, -4); (143000159164, -4); (-116657697633, -4); (817886687936, -5); (-482152568873, -5); (232135807934, -5); (-863429147653, -6); (190454944197, -6)].
Definition lc_l13 := [(618176128296585651431497281229868, -32); (-214088030061599777549484032729396, -31); (412032239687845596694728666761738, -31); (-634925321577773207362388980947601, -31); (863571897810684871346136666507078, -31); (-107376323509645066107188109699651, -30); (122748985604790250260686850137561, -30); (-125821025933731221721350641927848, -30); (106229079052892702036295501226120, -30); (-577526517733357370831992229009417, -31); (280796017296110886466495492110461, -32); (181708135972188138509595955089030, -31); (-683976860739174900281954676113182, -32); (293715050623387684470027572718344, -31); (-102458687630185083384937249125815, -30); (199730079683471677440457023026257, -30); (-313287981523747843967636071957559, -30); (435283609024639885128291397773519, -30); (-553316659533304449903135899854425, -30); (644617014804846142554402250378795, -30); (-671512946000560933525303240085486, -30); (592414474957434794276964958785331, -30); (-405397306014535834138580289873806, -30); (192298188003645367255421230838895, -30); (-577355397268278415849095543304905, -31); (105021886373958117243017056266526, -31); (109796819222652565509932956362379, -30); (-383654439845620646074332141981135, -30); (749646798473143407540220254254825, -30); (-117790902593643831084103945873768, -29); (163498888025749766493500806048144, -29); (-206508918373553772654497109080839, -29); (237327152365996178647401426575764, -29); (-242828240821921111495562837070537, -29); (212501151597490212799465359920317, -29); (-150914992575826129732744852569438, -29); (827974187706390957432807178377929, -30); (-338771145183342314667239495626082, -30); (825077078986521267258588636215613, -31); (364401954968637154218231122282557, -30); (-127180909826366700920727229954761, -29); (247821640893483550305152313432620, -29); (-387271611269922261506000245035004, -29); (532359355927527735002487662283664, -29); (-662191504358561600654948777304339, -29); (745281646658216690870427715056826, -29); (-745189638293175478476430243125628, -29); (641705041467219184434157550676166, -29); (-458776010387560030270007882856004, -29); (263593729272135220925235299737903, -29); (-116660756701658194498885644215174, -29); (300946214002136633333238429609403, -30); (111079189233423138258940385846226, -29); (-386630184334451451028218878622838, -29); (749329352088790168951633861250514, -29); (-116064586260758519358362946969648, -28); (157450210291829313373269832896067, -28); (-192341396904612381458065558061619, -28); (211741547851162015706846519838163, -28); (-206903178434443890340265256211797, -28); (175063965182655434541645882066747, -28); (-124738653002940024272424737056761, -28); (729245935786014518749560281023128, -29); (-332868586831762129404068217614148, -29); (877860102844354449419191284854018, -30); (316102032177507813559289926500141, -29); (-109643493824537437963116181308778, -28); (211101464575028362714434945330750, -28); (-323641647395409989947397328442650, -28); (432782882637445567887630809913092, -28); (-519019534222176241992660239284948, -28); (559222707454204850212995964618209, -28); (-534643405854061391824806188529721, -28); (444450167831373896569395467731564, -28); (-314155750374773712997341616629642, -28); (184524160238141046915712281190431, -28); (-852839532118778753390726671880366, -29); (226979462604693770452027151439691, -29); (849000766350392082721256189847668, -29); (-293368868750642338453783871334953, -28); (560852395004147165809155544548837, -28); (-850721387734536792179399167913700, -28); (112128402231602625940668427631900, -27); (-132074219978286754622374215572421, -27); (139424996683648068971573079965284, -27); (-130566051910501593915892187690820, -27); (106640585242934873437156592982030, -27); (-745533496963915032333254349411291, -28); (436733110434210987032902160202129, -28); (-202383420851491310454964644048446, -28); (539859790906169474154003242121813, -29); (217010715114788116311134877578281, -28); (-746946450482564853545203889477978, -28); (141774993514310743072441109354167, -27); (-212768931786630469289890740130292, -27); (276492598490690282184619091392570, -27); (-320079347134807841919887159267228, -27); (331357217692461408619507753960314, -27); (-304161301074597363070937350937284, -27); (243983247241247347372713149815408, -27); (-168255310189957191787398613371065, -27); (977563411377407112798610511957141, -28); (-451061141708361140432033726396208, -28); (120003129480294247063445069704261, -28); (531344532335960797141761792256160, -28); (-182171241919160152494634331286410, -27); (343302081579090130369562412205927, -27); (-509820807280470630595635889101318, -27); (653408896059735369290177128706426, -27); (-743800778542937348719704076921395, -27); (755513715009430706290807095803861, -27); (-679849177079528331636172642835853, -27); (535020381472694576630315623257823, -27); (-362827156967477125520238050467350, -27); (207941321011689110505169658521633, -27); (-949179017130505049146905651335487, -28); (250663344108193497365611609030378, -28); (125260221645464650989303276511887, -27); (-427775383558202621694128131288603, -27); (800421970057918868148462675466045, -27); (-117637400052070059923049399661480, -26); (148728940126686937453626759788493, -26); (-166518292700380066818988699038920, -26); (165958903838150501805882031164568, -26); (-146301936029668083674363423236896, -26); (112727794170133096268629200010303, -26); (-748623139641324528492550010613683, -27); (420421710974803979726496073276615, -27); (-188363541184953027412329491376818, -27); (490781763737082519043308250946432, -28); (285435621256880168097672100240963, -27); (-970970137533427296022496082986284, -27); (180390490931779843101413877277024, -26); (-262377417868842167164438242346562, -26); (327225391169729268493759393897235, -26); (-360268613960207330448571494256314, -26); (352078183805347001471628905531302, -26); (-303572068995387635182045046975868, -26); (228233082017965587679532530032986, -26); (-147506860792357783427356743267697, -26); (803962169860904652893185302721120, -27); (-349385312718931168465820607502546, -27); (889358951921271130894231838923503, -28); (630588341479330296000378095066653, -27); (-213655549975080224050255855594220, -26); (394075433118392033309939261753250, -26); (-567147201365465580458931512697987, -26); (697477615211067395743818446305069, -26); (-754579103786820762601810551614704, -26); (722003332146390328825210208677094, -26); (-607070801759000314929402462067901, -26); (442837746844219411181447561886714, -26); (-275764092177604552736122791281093, -26); (143532802815457896529935265802916, -26); (-591985665722056446007861319541722, -27); (144295605122199065698044194312577, -27); (135339451820168590660471632236399, -26); (-456673844274125271219955966836727, -26); (836015671940810432420536505632625, -26); (-118996320457077296915500087428412, -25); (144187945516331407005332856284268, -25); (-153059464351299216546769646903615, -25); (143000159163783794479236190271853, -25); (-116657697633335144424944087919689, -25); (817886687936224856409502137761671, -26); (-482152568873485756279140058758120, -26); (232135807933757355274280830023582, -26); (-863429147652855199807858655629008, -27); (190454944196912004157059317778034, -27)].
(* generated_coeffs.hpp:199, :469 *)
Definition la_d14 := [(877986508294, -14); (-328311623043, -14); (243769977191, -14); (-195809929678, -14); (161116775848, -14); (-13305215627, -13); (108963888466, -14); (-87630200574, -14); (68469369104, -14); (-512348412843, -15); (358848231298, -15); (-225331048393, -15); (114628208601, -15); (-327274204462, -16); (189981535902, -13); (200395217899, -13); (-528828692878, -14); (355141173897, -14); (-271822648689, -14); (216386043522, -14); (-173506996416, -14); (137711257618, -14); (-106673647746, -14); (793568026139, -15); (-553593219336, -15); (34668128127, -14); (-176059960672, -15); (502217676033, -16); (16855223028, -12); (435673907696, -13); (30379642672, -12); (-693923175519, -14); (43344047055, -13); (-316351532296, -14); (242277289054, -14); (-187121355052, -14); (142453006384, -14); (-104760430312, -14); (725153252626, -15); (-451771845981, -15); (228683634142, -15); (-651217733285, -16); (179971729466, -13); (382681743916, -13); (661233345537, -13); (393007917895, -13); (-823373536491, -14); (485948742726, -14); (-339128378072, -14); (249119959913, -14); (-184021037875, -14); (132745819948, -14); (-907277121182, -15); (560545874372, -15); (-282277859466, -15); (801673175676, -16); (172547617984, -13); (412533979918, -13); (579204623739, -13); (855778714769, -13); (463845993695, -13); (-912812000307, -14); (512982390659, -14); (-342399508689, -14); (24010077122, -13); (-167859385926, -14); (112473016941, -14); (-686129552117, -15); (342844909038, -15); (-969793854289, -16); (177874472666, -13); (392337598959, -13); (626327197422, -13); (748787154812, -13); (101022753501, -12); (512996159303, -13); (-958636975953, -14); (514289425654, -14); (-327298200286, -14); (217096714652, -14); (-140979076807, -14); (843606984772, -15); (-416706606796, -15); (117184468567, -15); (173819598205, -13); (40725133888, -12); (59391606126, -12); (810781747136, -13); (883477443626, -13); (11173735847, -11); (538159633658, -13); (-958944502747, -14); (490242083631, -14); (-295118084701, -14); (181927648653, -14); (-10563185247, -13); (512797239918, -15); (-142965263485, -15); (177026954294, -13); (3956624634, -11); (618156038686, -13); (767823070926, -13); (95720379586, -12); (976968110243, -13); (117221371759, -12); (538159633658, -13); (-913812660915, -14); (442145437638, -14); (-247659113448, -14); (136767921796, -14); (-646090308141, -15); (177770345416, -15); (174425456973, -13); (404957501867, -13); (599156783592, -13); (800113743472, -13); (905982315925, -13); (105872213864, -12); (102489032475, -12); (117218296491, -12); (512996159303, -13); (-825355476177, -14); (372286809792, -14); (-187343439821, -14); (845283684014, -15); (-227717100774, -15); (176567095513, -13); (397361986708, -13); (614454148961, -13); (774768534097, -13); (944477925982, -13); (100198224148, -12); (111055921818, -12); (102502102825, -12); (111727351864, -12); (463845993695, -13); (-697628789782, -14); (28388229701, -13); (-117435441191, -14); (304968367469, -15); (174795628483, -13); (403613214393, -13); (601987394696, -13); (795088607003, -13); (914417405395, -13); (104439442239, -12); (105140727132, -12); (111023210512, -12); (977397444334, -13); (101002934104, -12); (393007917895, -13); (-536404920974, -14); (181086918832, -14); (-437442780714, -15); (176248519392, -13); (398503599457, -13); (612110571899, -13); (778764303265, -13); (938168030421, -13); (101174701797, -12); (109503140282, -12); (105209153841, -12); (105762747184, -12); (884347940335, -13); (855408153343, -13); (30379642672, -12); (-348834718976, -14); (704507137926, -15); (175095083983, -13); (402551035406, -13); (604126040627, -13); (791551767984, -13); (919756307128, -13); (103665968338, -12); (106254814155, -12); (109366996696, -12); (100435371425, -12); (954874252259, -13); (750501718401, -13); (660475722727, -13); (200395217899, -13); (-143842342432, -14); (175924575863, -13); (399644153713, -13); (609846163923, -13); (782427353478, -13); (932815471518, -13); (10191453817, -11); (108508228737, -12); (106542287847, -12); (103929753423, -12); (911580309805, -13); (805596828759, -13); (58321585572, -12); (433621598103, -13); (877986508294, -14)].
Definition la_l14 := [(877986508293796575795821903454795, -35); (-328311623042934086798688316216252, -35); (243769977190523648369753867532496, -35); (-195809929677580446849837789111997, -35); (161116775847946349648444265711885, -35); (-133052156270291506772693351446155, -35); (108963888466220974785039375877712, -35); (-876302005740451815114376127002123, -36); (684693691039925453930883284840597, -36); (-512348412842921048968187481164774, -36); (358848231298344463716262218571774, -36); (-225331048392672084870452601877430, -36); (114628208600992289517695941405055, -36); (-327274204462017607888581448243350, -37); (189981535901935692032565753457345, -34); (200395217899400524514083192657136, -34); (-528828692877905772827154588731698, -35); (355141173896972234311116783155499, -35); (-271822648688944300089230331346735, -35); (216386043522498030367910884029325, -35); (-173506996416364108314035850590390, -35); (137711257617749357667294331528682, -35); (-106673647746380315042748249637517, -35); (793568026138729677545338924362882, -36); (-553593219336437327016306954809997, -36); (346681281269539277437669257943583, -36); (-176059960671760509587943072474205, -36); (502217676032972980292477605208439, -37); (168552230279503139456460219204252, -34); (435673907696408731646233759168512, -34); (303796426719757961723537022681192, -34); (-693923175519035119345305019603769, -35); (433440470550090540006755914465584, -35); (-316351532295943580063171436089832, -35); (242277289054359102627535965473214, -35); (-187121355051888424772368728276770, -35); (142453006383964222688942439349999, -35); (-104760430312298289632470226583768, -35); (725153252625853259256047396927371, -36); (-451771845981418753779397766857358, -36); (228683634142081114593321789361646, -36); (-651217733284800126896319373713546, -37); (179971729465900660094843746827399, -34); (382681743915636711701172340552138, -34); (661233345536871905749021814089698, -34); (393007917895483836424004846559605, -34); (-823373536491335826742210350287508, -35); (485948742725785845997735856907124, -35); (-339128378072244485517029851665092, -35); (249119959912946624822510381855310, -35); (-184021037875169195812940290871736, -35); (132745819947615736530485315118822, -35); (-907277121182312713726071572431614, -36); (560545874372256964826230090779137, -36); (-282277859465565741926729500486366, -36); (801673175675880271268840590184610, -37); (172547617984066298930832342738616, -34); (412533979917853903899376777087094, -34); (579204623738544047817452791920076, -34); (855778714769197311989090537154116, -34); (463845993694844534354291475312893, -34); (-912812000306882147124445709482786, -35); (512982390658682692428320009930379, -35); (-342399508689323368479917773962021, -35); (240100771220400841219767118394390, -35); (-167859385926087166843659137677713, -35); (112473016941185443769237507083812, -35); (-686129552116775559003003408177509, -36); (342844909038254845086894540875276, -36); (-969793854288979175266629724320737, -37); (177874472666498987219915789897631, -34); (392337598958662474135725228744003, -34); (626327197421615393472331900914912, -34); (748787154811760310330609299933730, -34); (101022753500743341641028589080367, -33); (512996159303239009914810164153045, -34); (-958636975953160870951134850919731, -35); (514289425654003773414845707324228, -35); (-327298200285945016047811109921003, -35); (217096714651606515875789781947959, -35); (-140979076807348690067732075971781, -35); (843606984771863475085728612171211, -36); (-416706606795931371592766062971839, -36); (117184468566671408063723397267082, -36); (173819598204594481529414082955742, -34); (407251338880214787650397745445252, -34); (593916061259882977498028646063490, -34); (810781747135810532747494681898616, -34); (883477443625841108910902653689403, -34); (111737358469799304747462009589509, -33); (538159633657894475489691108290650, -34); (-958944502746706154293216025288384, -35); (490242083631428848742035750691602, -35); (-295118084701215774738375533809831, -35); (181927648653469995209335198496095, -35); (-105631852469745200915360223396650, -35); (512797239918080511166826616528849, -36); (-142965263485369814388244817198644, -36); (177026954293613013303046828862945, -34); (395662463399620243916498119148983, -34); (618156038686490443538610067702048, -34); (767823070925620673327076173269601, -34); (957203795859810646182420504006768, -34); (976968110243335134955416753236930, -34); (117221371759045956640870381911014, -33); (538159633657894475489691108290650, -34); (-913812660915150276449997675889980, -35); (442145437638479597976802969363824, -35); (-247659113448428598994849887794055, -35); (136767921796329459490453992988933, -35); (-646090308141373862223136013098015, -36); (177770345416483362975029773521681, -36); (174425456973092601078527146718288, -34); (404957501866760362744094045943990, -34); (599156783591797288696216759240671, -34); (800113743471702541854782900716389, -34); (905982315924528417121003972430989, -34); (105872213863507252143440143929819, -33); (102489032475038857363789764584888, -33); (117218296491110503807449570167327, -33); (512996159303239009914810164153045, -34); (-825355476177443477017029401778844, -35); (372286809792073625174003931854807, -35); (-187343439820994700252578555525291, -35); (845283684013857489244115657026879, -36); (-227717100773967206075140920667221, -36); (176567095513048294334431010415280, -34); (397361986708418500577297439905519, -34); (614454148960683679037104079444158, -34); (774768534096849128471085942410829, -34); (944477925982297785392948864393556, -34); (100198224148443793570764361646665, -33); (111055921818472128782737399397750, -33); (102502102824992068173655021558826, -33); (111727351863716623454206489925437, -33); (463845993694844534354291475312893, -34); (-697628789782296391410808440349049, -35); (283882297009718756296212534423074, -35); (-117435441190528548712103917728224, -35); (304968367469301622833203795234327, -36); (174795628483083434887895540100774, -34); (403613214393456706447433680319135, -34); (601987394695793353798811744454592, -34); (795088607002790799985270408843527, -34); (914417405394927495055534419113903, -34); (104439442239399493941091435739326, -33); (105140727132449428849713117839577, -33); (111023210512301339953108520174781, -33); (977397444333899435229846742615378, -34); (101002934103882265138280398565454, -33); (393007917895483836424004846559605, -34); (-536404920973559823019477687273153, -35); (181086918831643373269940447621332, -35); (-437442780714134493567936613643993, -36); (176248519392044115286060700064672, -34); (398503599457380237882233167420655, -34); (612110571899330110984868023030957, -34); (778764303264709140255449219149937, -34); (938168030420918897671829973284162, -34); (101174701796808159756072608437109, -33); (109503140282097779345661908940898, -33); (105209153841035304071662862003398, -33); (105762747183607237783593747191507, -33); (884347940334680014707907359179227, -34); (855408153342871184782540195079588, -34); (303796426719757961723537022681192, -34); (-348834718976076826180673738542408, -35); (704507137925617570270416148670639, -36); (175095083982726342178871903085750, -34); (402551035405518654124045816039014, -34); (604126040626820530672697352782947, -34); (791551767984332046118172762667311, -34); (919756307128301771933129561382156, -34); (103665968338111605133389515326984, -33); (106254814155401401521265278342843, -33); (109366996695742536181078580164034, -33); (100435371425422821679282923990316, -33); (954874252258583498717505983760459, -34); (750501718401270449416898014803661, -34); (660475722727306500729789504235553, -34); (200395217899400524514083192657136, -34); (-143842342431763768734013727663862, -35); (175924575863221332767052962139202, -34); (399644153712791126132989425900221, -34); (609846163923442644295778571381157, -34); (782427353477984228210847070933493, -34); (932815471518118279198264825437433, -34); (101914538169607876529031149545768, -33); (108508228737319346913052597785132, -33); (106542287846916685350087827899353, -33); (103929753423350717050688966345071, -33); (911580309804894433743738524054597, -34); (805596828758725717532993472030411, -34); (583215855720463558610098658609134, -34); (433621598103094457708035216935897, -34); (877986508293796575795821903454795, -35)].
Definition lb14 := [(1755973016587593151591643806909589030985280463856363829074994509820816141890413526883839849932323183071086623822027556727927392553099215493386670442297858197396624404372228364532370742073853375159300715300544685130881177033802618969522294873299050437935904327044425527781095738044621648343380412060882729124, -308); (4007904357988010490281663853142715479184889269729738260069953274478573722864358493176809540956887798431125079540194237439765456912863022171883775599223704738986938618502683052885892613269772745615677733124855797322883267882608004687446770638554687675994193246397378142367581893645469507593959641161732825403, -308); (6075928534395159234470740453623831297833467284503733614553769627157987194626324615940995313518750357445777532652962849714057871567044342740482106285722730401445927053077103931002823377281466480127030511981835899270295037750248645249462050650955361786709105416648319337324109337606520468779147684278127732180, -308); (7860158357909676728480096931192107830283401866866168748465852193738408818480414925697904668120903813842657599954059425094271874603232881337446214551863230099350051109782372955392116140280534305845385660923346758006918872141925113294496193422195423425114324525620482851079333665449047681553822187276041950345, -308); (9276919873896890687085829506257851812446130146866582951001746253454917513176272221277636557335611149128056075286445944953894824871260804475427626207641821803643202030013616189848570692537672804666561394522496942619224268319696130896093991238030751372574677785064549447515336782318788732728214529799226224416, -308); (1025992318606478019829620328306090278551695306547097258584486451416835724126248601697159199959454478621846347212247143642267428066925322432959351151070158335708936664967374139195690556628424064127198380104525264882677124865618776625734596425949036197353524982360515886646128482750418314868365103698742602854, -307); (1076319267315788950979382216581300176374987790270644001098881962718093936769973020005122207054097891186283361662183854964740829882324650945178009540254907140208789013457825411438132086827245964731406018310166726882302612821553172064563273491747436332813654487561968582747125775543136881231782450843661072667, -307); (1076319267315788950979382216581300176374987790270644001098881962718093936769973020005122207054097891186283361662183854964740829882324650945178009540254907140208789013457825411438132086827245964731406018310166726882302612821553172064563273491747436332813654487561968582747125775543136881231782450843659468872, -307); (1025992318606478019829620328306090278551695306547097258584486451416835724126248601697159199959454478621846347212247143642267428066925322432959351151070158335708936664967374139195690556628424064127198380104525264882677124865618776625734596425949036197353524982360515886646128482750418314868365103698741354404, -307); (9276919873896890687085829506257851812446130146866582951001746253454917513176272221277636557335611149128056075286445944953894824871260804475427626207641821803643202030013616189848570692537672804666561394522496942619224268319696130896093991238030751372574677785064549447515336782318788732728214529799221578134, -308); (7860158357909676728480096931192107830283401866866168748465852193738408818480414925697904668120903813842657599954059425094271874603232881337446214551863230099350051109782372955392116140280534305845385660923346758006918872141925113294496193422195423425114324525620482851079333665449047681553822187276015196586, -308); (6075928534395159234470740453623831297833467284503733614553769627157987194626324615940995313518750357445777532652962849714057871567044342740482106285722730401445927053077103931002823377281466480127030511981835899270295037750248645249462050650955361786709105416648319337324109337606520468779147684278148536558, -308); (4007904357988010490281663853142715479184889269729738260069953274478573722864358493176809540956887798431125079540194237439765456912863022171883775599223704738986938618502683052885892613269772745615677733124855797322883267882608004687446770638554687675994193246397378142367581893645469507593959641161726341104, -308); (1755973016587593151591643806909589030985280463856363829074994509820816141890413526883839849932323183071086623822027556727927392553099215493386670442297858197396624404372228364532370742073853375159300715300544685130881177033802618969522294873299050437935904327044425527781095738044621648343380412060883202379, -308)].
(* generated_coeffs_co.hpp:73, :163 *)
Definition lc_d14 := [(-102910491202, -10); (35664993216, -9); (-687690593391, -10); (106433249186, -9); (-146143486192, -9); (18539642504, -8); (-221090120197, -9); (248301799929, -9); (-257919153498, -9); (234545421863, -9); (-165851313177, -9); (757307225154, -10); (-178050930492, -10); (280352091872, -11); (-378146707035, -10); (132338523122, -9); (-259733684784, -9); (412461025995, -9); (-585586404894, -9); (772931726436, -9); (-961633253189, -9); (11224622396, -7); (-119957644092, -8); (112131552041, -8); (-8614533029, -7); (512670772996, -9); (-226530722086, -9); (586555525289, -10); (-127533527568, -9); (449176493725, -9); (-891308807027, -9); (143618387126, -8); (-20723812891, -7); (277608252332, -8); (-348535745561, -8); (406717411304, -8); (-430761478053, -8); (399398336655, -8); (-311001615948, -8); (195786729941, -8); (-943914202008, -9); (257998792589, -9); (-41931281058, -8); (148064665275, -8); (-294965192304, -8); (477186604845, -8); (-690028250086, -8); (92232510543, -7); (-11480005349, -6); (131884334419, -7); (-136960362204, -7); (124952164278, -7); (-971066891203, -8); (623048028131, -8); (-309747691771, -8); (863797656097, -9); (-133900310264, -8); (47256243428, -7); (-939929190847, -8); (151512885643, -7); (-217581474422, -7); (287499844067, -7); (-35191143242, -6); (395877822849, -7); (-40213997217, -6); (360479663581, -7); (-278216303942, -7); (179633276836, -7); (-904983293363, -8); (254727955264, -8); (-410628213009, -8); (144571806258, -7); (-286199664553, -7); (457821593799, -7); (-650073010966, -7); (845841318258, -7); (-101556379216, -6); (11178350441, -5); (-111149978578, -6); (979654592768, -7); (-749677840375, -7); (484428287715, -7); (-245485740093, -7); (694117487665, -8); (-120289475136, -7); (422128729025, -7); (-830566348642, -7); (131630981158, -6); (-18452826899, -5); (236213661496, -6); (-278208662784, -6); (299959283374, -6); (-292452132585, -6); (253777860221, -6); (-192484901619, -6); (124147105817, -6); (-630451576478, -7); (178630908914, -7); (-336655384543, -7); (117722830993, -6); (-23012073267, -5); (361194394176, -6); (-499866140966, -6); (629804977509, -6); (-728450831141, -6); (770630830483, -6); (-738097963772, -6); (631449719276, -6); (-47473847382, -5); (305173151355, -6); (-154973169074, -6); (439370781309, -7); (-902841418115, -7); (314589040108, -6); (-610987121513, -6); (949996932245, -6); (-129861047557, -5); (161197599679, -5); (-183354094495, -5); (190649654386, -5); (-179686040748, -5); (151730774721, -5); (-113093026467, -5); (723914839573, -6); (-367116504438, -6); (104048878818, -6); (-232926029018, -6); (808835157758, -6); (-156119024342, -5); (240577130399, -5); (-325071700326, -5); (397970003138, -5); (-445771966993, -5); (456264228605, -5); (-423751517983, -5); (353507687501, -5); (-261249724602, -5); (166408326423, -5); (-841917241591, -6); (238373801712, -6); (-580415196637, -6); (200891680998, -5); (-385483132903, -5); (589031655587, -5); (-787335614628, -5); (951604149745, -5); (-105091077567, -4); (106015075773, -4); (-97127692198, -4); (800992257767, -5); (-586905598806, -5); (371779752462, -5); (-187497757673, -5); (530010768419, -6); (-140203163101, -5); (483765274515, -5); (-923131935935, -5); (139941044745, -4); (-185164566363, -4); (221131597378, -4); (-241005827092, -4); (239850437755, -4); (-216930080735, -4); (176906989955, -4); (-128491092346, -4); (808895574959, -5); (-406315688353, -5); (114604914001, -5); (-329346623197, -5); (113305077553, -4); (-21507332866, -3); (323593692865, -4); (-424082436774, -4); (500767803535, -4); (-539011673016, -4); (529552526505, -4); (-473016933035, -4); (38146289414, -3); (-274516719793, -4); (171603295062, -4); (-857752261382, -5); (241256909162, -5); (-754380568648, -5); (258797849901, -4); (-488772258174, -4); (730129212398, -4); (-948151345262, -4); (110757923302, -3); (-117797404982, -3); (114289160557, -3); (-100833420854, -3); (803890783602, -4); (-572755599376, -4); (35512893781, -3); (-176442278997, -4); (494501755156, -5)].
Definition lc_l14 := [(-102910491201745120760288238798559, -31); (356649932160325766216087854954939, -31); (-687690593391070322239773060026256, -31); (106433249186057306353358226526756, -30); (-146143486192263888634426069128872, -30); (185396425039936284368298552881784, -30); (-221090120196881314572561012603924, -30); (248301799929366066500321686931137, -30); (-257919153498239416344068534306548, -30); (234545421862513355709039423111380, -30); (-165851313176512109847948190194499, -30); (757307225154488337566831859905406, -31); (-178050930492445916823977585640482, -31); (280352091872003590267703510993137, -32); (-378146707034560216471931849212323, -31); (132338523121893426929513326063090, -30); (-259733684784192489963103004338320, -30); (412461025995191069984437986601516, -30); (-585586404894057694504223037784489, -30); (772931726435990663436364108569125, -30); (-961633253188619398000330484798036, -30); (112246223959614404495430285323460, -29); (-119957644091701316877767462604961, -29); (112131552041206719751305812266943, -29); (-861453302899804054280584787445832, -30); (512670772995702358558819040712771, -30); (-226530722086344361000602291277326, -30); (586555525288880038328989934589698, -31); (-127533527567558068145717068367897, -30); (449176493725425051126095582527733, -30); (-891308807027209532727550733997805, -30); (143618387126051936278669882594828, -29); (-207238128909747376426390596998835, -29); (277608252331922462692295432742709, -29); (-348535745561204618618254409204422, -29); (406717411303625056526637777473430, -29); (-430761478053183418376256732189741, -29); (399398336654513992651988387713234, -29); (-311001615947563108468749394495589, -29); (195786729941395747808229622248384, -29); (-943914202007712387367735753316161, -30); (257998792588929115675522030097295, -30); (-419312810579804814593111085030069, -30); (148064665274544785401063865373233, -29); (-294965192304157869315077529318076, -29); (477186604845340577858550851665759, -29); (-690028250086299159659038787191180, -29); (922325105430236863196001650975965, -29); (-114800053489859775580134649227593, -28); (131884334419175073154991183962936, -28); (-136960362204070361748938844096057, -28); (124952164277683483114963516278659, -28); (-971066891203171241983336541072945, -29); (623048028130710408760732835157589, -29); (-309747691771321460217772884973423, -29); (863797656097112537509597933351987, -30); (-133900310263941210727628402515108, -29); (472562434280184697359962248989085, -29); (-939929190846967954289849770048559, -29); (151512885643264611953099209732721, -28); (-217581474421982417075196197877979, -28); (287499844066859916243382265333524, -28); (-351911432420428247004905999911883, -28); (395877822848725395283522510871240, -28); (-402139972170044055749449035953399, -28); (360479663581223029295847100275185, -28); (-278216303942169349063666030589004, -28); (179633276835691916776106000917608, -28); (-904983293363325887593168958371618, -29); (254727955263636234937883135119179, -29); (-410628213009044319256162406732297, -29); (144571806257640591708874009351260, -28); (-286199664553266956805445193727088, -28); (457821593799479931736257968893111, -28); (-650073010965651290659364181592041, -28); (845841318258387495427664530270083, -28); (-101556379215595866583452704190150, -27); (111783504409719790475528884473014, -27); (-111149978578375267179977880240155, -27); (979654592767790556120829488690679, -28); (-749677840375493932424312521951136, -28); (484428287714816997597629279454646, -28); (-245485740092550839834425666630359, -28); (694117487665328518501342424208789, -29); (-120289475136183700422887105556397, -28); (422128729024573739880055814938479, -28); (-830566348642026850456229409460827, -28); (131630981157696759461999979766330, -27); (-184528268990152725810908148091643, -27); (236213661496403938985015239723131, -27); (-278208662783639132635278255608910, -27); (299959283374362935664645007412836, -27); (-292452132584528075465530561074740, -27); (253777860221333380873926291944072, -27); (-192484901618541117920224189078120, -27); (124147105816814914938433067311885, -27); (-630451576478192448136476814294152, -28); (178630908913948911992358100505272, -28); (-336655384543048312158658979689882, -28); (117722830992710433456361987775251, -27); (-230120732669742193398882220205942, -27); (361194394175960216709447862988387, -27); (-499866140965830303157914143308898, -27); (629804977509051486575684121132708, -27); (-728450831141326344952439238089456, -27); (770630830482684409308943600205497, -27); (-738097963772351945331989238733563, -27); (631449719276302856561767380285968, -27); (-474738473819861987392021792985887, -27); (305173151354712715846369603499371, -27); (-154973169073915456573066453409347, -27); (439370781309011444354138558335579, -28); (-902841418115437981418277820443592, -28); (314589040108267087769676009874315, -27); (-610987121512695244439409013297854, -27); (949996932244973229010097897966123, -27); (-129861047556820315466439475105577, -26); (161197599678716421893265444102803, -26); (-183354094495486125241324005652777, -26); (190649654385793121049897216844349, -26); (-179686040748350440382596650597093, -26); (151730774721391092423589130639468, -26); (-113093026467387249273443478671252, -26); (723914839572900093906717352267418, -27); (-367116504437970604592569191139868, -27); (104048878817886597186834222827145, -27); (-232926029018366388565809734235496, -27); (808835157758221436160756691829774, -27); (-156119024341736888582559084358226, -26); (240577130399186894658932425730686, -26); (-325071700325562888918646476931183, -26); (397970003137809377640153646512347, -26); (-445771966992559199321102923855428, -26); (456264228605076153961492904275138, -26); (-423751517982801615962226426767256, -26); (353507687500670873037895259326751, -26); (-261249724601737300487201496509078, -26); (166408326422924393939065554025013, -26); (-841917241591225623948437101112553, -27); (238373801712336430673073747044597, -27); (-580415196636564937306662284442039, -27); (200891680998371169713254683946748, -26); (-385483132903219786047409861218021, -26); (589031655586515519148797316502053, -26); (-787335614627836301906415308516156, -26); (951604149744950038420167367820956, -26); (-105091077567252059187221590618153, -25); (106015075772588193988559028080866, -25); (-971276921979597256650704795085019, -26); (800992257767088472442861387877500, -26); (-586905598806086503622814728861305, -26); (371779752462101482920853222180608, -26); (-187497757673199836693165961315188, -26); (530010768419340827604867878397507, -27); (-140203163101291605392867474300610, -26); (483765274514607714980715759916191, -26); (-923131935935327764401527248252587, -26); (139941044744811408027984866208683, -25); (-185164566363311182088679778238971, -25); (221131597377726123494265718386738, -25); (-241005827092396702341742281030130, -25); (239850437755133928084379744537103, -25); (-216930080735466903871415172982895, -25); (176906989955309460357212804375212, -25); (-128491092345788721286190371644545, -25); (808895574959350190169803914191994, -26); (-406315688352746404051763763497436, -26); (114604914000845661398108164616212, -26); (-329346623196939398018625123624224, -26); (113305077553145677347716393847357, -25); (-215073328660107436862470006818288, -25); (323593692865303477700182478094103, -25); (-424082436774446028030330824742114, -25); (500767803534740523999923169338623, -25); (-539011673015979195508110748948686, -25); (529552526505326896461320029428955, -25); (-473016933034785293944500230069160, -25); (381462894139935775945088491313633, -25); (-274516719793150249090771918397724, -25); (171603295062375451121376322393359, -25); (-857752261381901325531203805034596, -26); (241256909162304025762132772966568, -26); (-754380568648201912072365117238206, -26); (258797849901037752176758863697480, -25); (-488772258174120580338129624538280, -25); (730129212398209138308048620758100, -25); (-948151345262370629077894301926843, -25); (110757923301769417971803390185646, -24); (-117797404982158366129217538237773, -24); (114289160557425782185515366808272, -24); (-100833420853638306926940199787296, -24); (803890783601721467158433650741888, -25); (-572755599376425278206288460340491, -25); (355128937809771679241185184440344, -25); (-176442278996533607623199248826080, -25); (494501755155542945215632697547358, -26)].
(* generated_coeffs.hpp:222, :492 *)
Definition la_d15 := [(768831049903, -14); (-288207652296, -14); (214977135689, -14); (-17388496538, -13); (144470413916, -14); (-120875124594, -14); (-829198279957, -15); (66882097553, -14); (-523450351173, -15); (392046730692, -15); (-274715621755, -15); (172538127707, -15); (-877790602646, -16); (250623437545, -16); (100730755285, -14); (16636222751, -12); (17591511872, -12); (-466351386567, -14); (315354205167, -14); (-243709364542, -14); (196545995212, -14); (130260473646, -14); (-104148556214, -14); (810228194456, -15); (-604288995042, -15); (422194068522, -15); (-264629686031, -15); (134457272942, -15); (-383635400719, -16); (-160354180515, -14); (147596657936, -13); (382453177464, -13); (267898051168, -13); (-61612578219, -13); (388540778486, -14); (-287258727159, -14); (-176882660434, -14); (138957805663, -14); (-106833441026, -14); (790333943392, -15); (-549070190929, -15); (342837152367, -15); (-173768948419, -15); (495161011044, -16); (223809184709, -14); (157597621062, -13); (33593131848, -12); (583100851091, -13); (348926694815, -13); (-737940946174, -14); (441096801813, -14); (235280924474, -14); (-179283158916, -14); (135144263633, -14); (-98660966734, -14); (679266000451, -15); (-421563716076, -15); (212853647458, -15); (-605313101683, -16); (-313090802751, -14); (151094077412, -13); (362144152536, -13); (510754948902, -13); (759798064004, -13); (415673014542, -13); (-828277336541, -14); (-323039674395, -14); (233558196615, -14); (-170522856069, -14); (121948195415, -14); (-828185709088, -15); (509364129494, -15); (-255738444847, -15); (725131747848, -16); (473286955543, -14); (155763030989, -13); (344401095552, -13); (552331478313, -13); (664782993761, -13); (905323400785, -13); (465402500039, -13); (484679298141, -14); (-317822423571, -14); (219973318685, -14); (-152302038826, -14); (10132184771, -13); (-614961686883, -15); (306254025293, -15); (-864724368757, -16); (-88394434056, -13); (155025009303, -13); (347305608049, -13); (545152787351, -13); (681643199524, -13); (857860006893, -13); (886264983356, -13); (506445604814, -13); (-884395744971, -14); (44540016722, -13); (-265139778085, -14); (162101901072, -14); (-93566850152, -14); (452462939123, -15); (-125879932237, -15); (108059700113, -12); (152729660096, -13); (355523462959, -13); (528291945368, -13); (710463622321, -13); (811775780039, -13); (960621911493, -13); (110317896557, -12); (496078713318, -13); (-829283528899, -14); (3965754028, -12); (-220218558161, -14); (120863973412, -14); (-568634048294, -15); (156114201768, -15); (944637878374, -13); (154630934349, -13); (348767697188, -13); (541945719205, -13); (68772120486, -12); (846576232968, -13); (908807668209, -13); (964423279814, -13); (108055186069, -12); (465402500039, -13); (-739773717005, -14); (330703958696, -14); (-165353759768, -14); (742914188875, -15); (-19968210085, -14); (102393966899, -12); (153041078233, -13); (354387621889, -13); (530702461041, -13); (706135246722, -13); (819151209543, -13); (947857285685, -13); (104519517707, -12); (944828731081, -13); (101363273373, -12); (415673014542, -13); (-619446743736, -14); (250411534341, -14); (-103139150959, -14); (267213256875, -15); (968801606974, -13); (154371523082, -13); (349701700966, -13); (540011739497, -13); (691060729626, -13); (841212125758, -13); (917290573714, -13); (98936311718, -12); (102346650691, -12); (886695319897, -13); (905140123702, -13); (348926694815, -13); (-473047487554, -14); (158989189607, -14); (-383141108096, -15); (101008574253, -12); (15327104897, -12); (353567926925, -13); (532367730812, -13); (70334409154, -12); (823442689651, -13); (94148834418, -12); (103057947567, -12); (969776508165, -13); (959530872794, -13); (792491951236, -13); (75946596785, -12); (267898051168, -13); (-306229400235, -14); (616955204475, -15); (978261646069, -13); (154149845381, -13); (350485664711, -13); (538442399196, -13); (693631448946, -13); (837388919035, -13); (922702718133, -13); (999865162263, -13); (100819284469, -12); (911150400557, -13); (855716965539, -13); (666317969114, -13); (582431240993, -13); (17591511872, -12); (-125960175292, -14); (100257228226, -12); (153515586543, -13); (352708028043, -13); (534070721059, -13); (700600545848, -13); (827425561778, -13); (93603950359, -12); (102118319243, -12); (982084351107, -13); (942892512537, -13); (816898987693, -13); (715241886169, -13); (514298388767, -13); (38065100267, -12); (768831049903, -14); (98546921688, -12); (152205067963, -13); (357516577923, -13); (523709704995, -13); (719875245447, -13); (791688488805, -13); (101373335297, -12); (-902877559412, -14); (475195482617, -14); (-29816911415, -13); (195702490455, -14); (-126102326903, -14); (75041569679, -14); (-369322551827, -15); (103654988414, -15); (496078713318, -13)].
Definition la_l15 := [(768831049902931708865709839430110, -35); (-288207652296439580063546956640496, -35); (214977135688850644287947195441230, -35); (-173884965380298083558788216578044, -35); (144470413915726138708869767716335, -35); (-120875124593688546658128485877837, -35); (-829198279957270056165475383330968, -36); (668820975529917187940369682561850, -36); (-523450351172725058136595675165461, -36); (392046730691602014114395777496628, -36); (-274715621754918118582794977518628, -36); (172538127706577039763717164693461, -36); (-877790602645868752966820187805339, -37); (250623437545120994878446872165364, -37); (100730755285335470627173001460784, -35); (166362227509783404984961450415114, -34); (175915118720270311773168541126668, -34); (-466351386567139920910945192640114, -35); (315354205167060177481027904195496, -35); (-243709364541861248927066133075671, -35); (196545995211755642319833638016242, -35); (130260473646139385678049832465133, -35); (-104148556214203561932207449711480, -35); (810228194455859749132304352513766, -36); (-604288995041522705160129596905066, -36); (422194068522064401364461722620928, -36); (-264629686030523967638173133559916, -36); (134457272941865614537600421636876, -36); (-383635400718623012778712595397459, -37); (-160354180515170935773759150854591, -35); (147596657935835599495579379109451, -34); (382453177464055777555361371553767, -34); (267898051167929837529673866714673, -34); (-616125782189826452701945604676958, -35); (388540778485748995650797025288780, -35); (-287258727158500903381330889237036, -35); (-176882660434387913394492107044070, -35); (138957805663066645209914875567541, -35); (-106833441025736725849353335977303, -35); (790333943391873816513817513980545, -36); (-549070190929407584415480432400551, -36); (342837152366744899109634183981507, -36); (-173768948419062931349295607481126, -36); (495161011043642971631230913928475, -37); (223809184708612148925667948641971, -35); (157597621061541406071917707671331, -34); (335931318479854185736211582802462, -34); (583100851091268661824035925215984, -34); (348926694815385786119511986277571, -34); (-737940946173976384827296895623885, -35); (441096801812590706555516092206085, -35); (235280924473860437078970068009314, -35); (-179283158915975579588626926021054, -35); (135144263633254211230345864810751, -35); (-986609667339780165472251839726848, -36); (679266000451239434163117754700047, -36); (-421563716075716397819728976520931, -36); (212853647458382933211580026679770, -36); (-605313101682632124896863746739518, -37); (-313090802751342417934286012797411, -35); (151094077411841340124542675513073, -34); (362144152536475076570565761402277, -34); (510754948901790939145299350867404, -34); (759798064004408833045786853890249, -34); (415673014542484833883002151203022, -34); (-828277336540880503184844886533352, -35); (-323039674394951171049944257284989, -35); (233558196615176564298443910486194, -35); (-170522856069432033507452748948227, -35); (121948195415413587624329276381805, -35); (-828185709088390761404758010888066, -36); (509364129493923943341426134730871, -36); (-255738444847295467362462157213771, -36); (725131747848474283504476134943536, -37); (473286955543412436973698556430448, -35); (155763030989084244329229244789970, -34); (344401095551792856353578159705013, -34); (552331478312634465959558708141656, -34); (664782993761123615184061906266898, -34); (905323400785462625916172751622854, -34); (465402500038905527567001404666057, -34); (484679298140696426300794637272217, -35); (-317822423571163094902465918219191, -35); (219973318684740140886793973388926, -35); (-152302038826284084666941590870139, -35); (101321847710032825541555137730759, -35); (-614961686883209505797295930784541, -36); (306254025292725873549587624150750, -36); (-864724368757241202958614665039038, -37); (-883944340559603285861769562965557, -35); (155025009302956829281881053093292, -34); (347305608049307295822013036311998, -34); (545152787351061594892301878123766, -34); (681643199523595268233594122982296, -34); (857860006893487479412995056538336, -34); (886264983355843505212644083221176, -34); (506445604813903182201550499918798, -34); (-884395744970946354663335487841734, -35); (445400167219675499213587261109381, -35); (-265139778085178116469907541322919, -35); (162101901071763040054298495728458, -35); (-935668501520191983295414469441973, -36); (452462939123332772432404594133889, -36); (-125879932237048750873908520726956, -36); (108059700113265251774692518100337, -33); (152729660096446532887154273776346, -34); (355523462958812372687600312419467, -34); (528291945367959129786560876927991, -34); (710463622321110828606712156060207, -34); (811775780039442352442256266787681, -34); (960621911492772619098913177211643, -34); (110317896556901683222398533330108, -33); (496078713317778941140295816109598, -34); (-829283528898673480148119897698628, -35); (396575402799720493942905295023015, -35); (-220218558160831593772050076925001, -35); (120863973412445964285627893313716, -35); (-568634048293621479668241547644885, -36); (156114201767673815646320252275934, -36); (944637878373826340839046195961349, -34); (154630934349343582976100582551061, -34); (348767697187613364810841206011829, -34); (541945719204691770117320692737192, -34); (687721204859768289684868458782066, -34); (846576232967598076232698461493058, -34); (908807668209337041045323411993222, -34); (964423279813736721773021536110375, -34); (108055186069151821086676858851575, -33); (465402500038905527567001404666057, -34); (-739773717004929581501684492168096, -35); (330703958696479570549620662882437, -35); (-165353759767747909002109747123093, -35); (742914188874776719275892254832318, -36); (-199682100849790255608727690394819, -36); (102393966899267419177083822404112, -33); (153041078232737867489637491751079, -34); (354387621889013578219961703825474, -34); (530702461040920435625933472082038, -34); (706135246721655479853071552664022, -34); (819151209543428309003571374767864, -34); (947857285684754258484748084226937, -34); (104519517706730148150809542556610, -33); (944828731081216638583221776576152, -34); (101363273373189910545248729798545, -33); (415673014542484833883002151203022, -34); (-619446743736372608067628813351075, -35); (250411534340687359140483825619426, -35); (-103139150959344530242286791489404, -35); (267213256874500164859929237294932, -36); (968801606974040225850747241170577, -34); (154371523082268973898038831632762, -34); (349701700965956794214221281986539, -34); (540011739496616839037545023194556, -34); (691060729626259177897392795008141, -34); (841212125758367469420726820803313, -34); (917290573714485634010968222851039, -34); (989363117180420320695203993036665, -34); (102346650691069212407402023349894, -33); (886695319896551984478451200111506, -34); (905140123702367306248733991968433, -34); (348926694815385786119511986277571, -34); (-473047487554089867646881917866378, -35); (158989189606864378101254994508743, -35); (-383141108095506429877573978530933, -36); (101008574252715544023945432482130, -33); (153271048969542698801510736972094, -34); (353567926924731252859830038328148, -34); (532367730812192226068251391589531, -34); (703344091540065648083178776879147, -34); (823442689651050929600866127266239, -34); (941488344180384727718938142929845, -34); (103057947567124515574255021054200, -33); (969776508164696667388024837354999, -34); (959530872793661145472135898255818, -34); (792491951236394768200924599877166, -34); (759465967849754217509218533022837, -34); (267898051167929837529673866714673, -34); (-306229400235151540090242893004299, -35); (616955204475074227756258877657089, -36); (978261646069251217759600144662443, -34); (154149845381304964785920680481420, -34); (350485664711121967400961078036968, -34); (538442399196164914735729464764946, -34); (693631448945550928225379355328932, -34); (837388919035384894817605598375095, -34); (922702718133252457642679765806976, -34); (999865162263192425835296016591083, -34); (100819284468707497585796754730466, -33); (911150400556635490902019445530490, -34); (855716965539155792658710915713611, -34); (666317969114065554490921182135592, -34); (582431240992573667150442252693358, -34); (175915118720270311773168541126668, -34); (-125960175291970632118194825290922, -35); (100257228225697823847381237719034, -33); (153515586543041220778263521013857, -34); (352708028043186492299303902441142, -34); (534070721058793904661710561782412, -34); (700600545848320753424851922330328, -34); (827425561778053647624860344631078, -34); (936039503589538305715368766083769, -34); (102118319242737906496475575367091, -33); (982084351107024335217874332073118, -34); (942892512537179909799815657919898, -34); (816898987693397053895117325634411, -34); (715241886168801380594902794212946, -34); (514298388766974610630553013885224, -34); (380651002670184581552691777917386, -34); (768831049902931708865709839430110, -35); (985469216880258710401187935393578, -34); (152205067962909603616678765363263, -34); (357516577923476838343019497729786, -34); (523709704994615078630784944097975, -34); (719875245446854731616228980247642, -34); (791688488804997618371713772903743, -34); (101373335296767840314881479910198, -33); (-902877559412104678208843334634815, -35); (475195482617315414415454362578481, -35); (-298169114149615639649103678795289, -35); (195702490455273153237480356183629, -35); (-126102326903392563676881835050655, -35); (750415696790054527278685650135590, -36); (-369322551827174914126323016613038, -36); (103654988413980888598769410967572, -36); (496078713317778941140295816109598, -34)].
Definition lb15 := [(1537662099805863417731419678860220886087407241671703713211414275211859473355858401951938536619970200125849559442973656509656558966535245682860606247440200440268957837268080817368398934233377033098322534979827704622218758933775277409498393104153504782786054118837258645792067478678146979296987196682830460390, -308); (3518302374405406235463370822533366923335401637716535991295364645719352775643711852242022603334696960967774492929752026940230742163864553964782780207687912395354844511880668903988342675918187132611945329894131108013892909185743125620767818801236636230455682117786153920376609980220032832905613055588209219898, -308); (5357961023358596750593477334293465170777185787905099034351119456093899742615789986284292856880431202219904383918752779063590524942028391199873541393076808106619185754505777447825030322442905471418415732863810631689778551277549883941870884250029295768447647052475458456531516696281578973775514405708189811013, -308); (6978533896307715722390239725551416126042513765775562160119556431554422227095390584038412868178566681907454444663831995205554586227457048141166712032200631863923972528799705986366803856514178215443159920090907345668232150777290506186878592789136497179274164905662499806197037025681512297512536141498954293869, -308); (8313460290849696677660043024060440556545009004920645366093259528177678160613925885535258714620776810742230770328592611370908573150854838774625873359180491034956146119293248188949999773688221555996238784868754270766445343663806960365826785066865693097128193472816959009632880306033454622277196216029809258764, -308); (9308050000778110551340028093321141225311300613896420140774786365500662775134958030947488444304966180269988854500692217653363510869409111094568254087622011972273167492276274919274938522793491733719115027660472336125208960510834848248600071736300196203426459049551404201134206739487028542342457035924637160946, -308); (1012891209627806364403100999837596574193310790047386783983520580257176993773730370466967203563940160676757413354149950886547623144359741096337832934569531306128042724779321515918252514989111725708462305198901935498672095408692145288881885618482355079091675828272564869301466038062774659511256247852975994681, -307); (9921574266355578822805916322191966240934627997877099674236896396456239876671713406665749958240891160383010427444654958823957387958052105660433067999944287655963512132079636156635223339464080229170491143647586925620862848607538671782148026159866401343023420141507441613828351583304372454333414709302649829266, -308); (9308050000778110551340028093321141225311300613896420140774786365500662775134958030947488444304966180269988854500692217653363510869409111094568254087622011972273167492276274919274938522793491733719115027660472336125208960510834848248600071736300196203426459049551404201134206739487028542342457035924593310703, -308); (8313460290849696677660043024060440556545009004920645366093259528177678160613925885535258714620776810742230770328592611370908573150854838774625873359180491034956146119293248188949999773688221555996238784868754270766445343663806960365826785066865693097128193472816959009632880306033454622277196216029790738017, -308); (6978533896307715722390239725551416126042513765775562160119556431554422227095390584038412868178566681907454444663831995205554586227457048141166712032200631863923972528799705986366803856514178215443159920090907345668232150777290506186878592789136497179274164905662499806197037025681512297512536141498847014021, -308); (5357961023358596750593477334293465170777185787905099034351119456093899742615789986284292856880431202219904383918752779063590524942028391199873541393076808106619185754505777447825030322442905471418415732863810631689778551277549883941870884250029295768447647052475458456531516696281578973775514405708140197696, -308); (3518302374405406235463370822533366923335401637716535991295364645719352775643711852242022603334696960967774492929752026940230742163864553964782780207687912395354844511880668903988342675918187132611945329894131108013892909185743125620767818801236636230455682117786153920376609980220032832905613055588143487435, -308); (1537662099805863417731419678860220886087407241671703713211414275211859473355858401951938536619970200125849559442973656509656558966535245682860606247440200440268957837268080817368398934233377033098322534979827704622218758933775277409498393104153504782786054118837258645792067478678146979296987196682840107698, -308); (9921574266355578822805916322191966240934627997877099674236896396456239876671713406665749958240891160383010427444654958823957387958052105660433067999944287655963512132079636156635223339464080229170491143647586925620862848607538671782148026159866401343023420141507441613828351583304372454333414709302625108573, -308)].
(* generated_coeffs_co.hpp:79, :169 *)
Definition lc_d15 := [(-680785069835, -6); (238745017514, -5); (-465242845103, -5); (718772824115, -5); (-966226249821, -5); (117462296406, -4); (137789899126, -4); (-134934014106, -4); (123525684346, -4); (-104841651035, -4); (809699168275, -5); (-546603488809, -5); (292027667638, -5); (-856461606004, -6); (-131746947299, -4); (-122718981404, -5); (427596204942, -5); (-825835967922, -5); (126456344182, -4); (-168734305251, -4); (203976946972, -4); (237606567238, -4); (-232190704551, -4); (212233017647, -4); (-179929699449, -4); (138848763614, -4); (-936798691492, -5); (500310847036, -5); (-146703443283, -5); (-227851922129, -4); (-220822537578, -5); (765653501605, -5); (-146857701307, -4); (223316166407, -4); (-29622881497, -3); (35649124097, -3); (412916377298, -4); (-40280738608, -3); (367718964805, -4); (-311460998433, -4); (240188515835, -4); (-161977145818, -4); (864801332397, -5); (-253540435929, -5); (-396908401363, -4); (-39746852227, -4); (137295776594, -4); (-261941612296, -4); (39615313413, -3); (-523058887065, -4); (627209757324, -4); (723171814515, -4); (-704474715657, -4); (642441952514, -4); (-543738993333, -4); (41908228948, -3); (-282509770903, -4); (150795369369, -4); (-442039985885, -5); (-696475261296, -4); (-716688109722, -5); (246847442018, -4); (-469010233458, -4); (706308690064, -4); (-929163426391, -4); (111100892421, -3); (127630876997, -3); (-124189133786, -3); (113157710656, -3); (-957125114822, -4); (737360924463, -4); (-496908620796, -4); (265180898214, -4); (-777264307564, -5); (-123109877838, -3); (-129591061972, -4); (445356437203, -4); (-843479458028, -4); (126604525893, -3); (-166073452145, -3); (198129438143, -3); (226942726632, -3); (-220618328877, -3); (200881957479, -3); (-169824958433, -3); (130782642203, -3); (-881115996929, -4); (470138545755, -4); (-137788762615, -4); (-219176521063, -3); (-235147268966, -4); (806734675731, -4); (-152414826809, -3); (228184490216, -3); (-298650369871, -3); (355666306844, -3); (406437746753, -3); (-394812834947, -3); (359287819256, -3); (-3036110090, -1); (23373897767, -2); (-157441928495, -3); (839949558184, -4); (-246155519313, -4); (-392922516031, -3); (-428363948569, -4); (146769088385, -3); (-276762234482, -3); (413524854971, -3); (-540279839475, -3); (64252886277, -2); (732871505653, -3); (-711467346772, -3); (647141950449, -3); (-546662422233, -3); (420746023239, -3); (-28335533918, -2); (15115229365, -2); (-442940339333, -4); (-709076968054, -3); (-78359535112, -3); (268211540267, -3); (-50502817202, -2); (753427665039, -3); (-983026768826, -3); (116777718927, -2); (132994165738, -2); (-129042839517, -2); (11732853840, -1); (-990812476593, -3); (762424670031, -3); (-513384977186, -3); (273832863129, -3); (-802407237556, -4); (-128761992034, -2); (-14394747071, -2); (492328971348, -3); (-925987857857, -3); (13797877759, -1); (-179833318953, -2); (213442989774, -2); (242776911974, -2); (-235459415229, -2); (214010519536, -2); (-180679672676, -2); (139005942939, -2); (-935889883658, -3); (499152531259, -3); (-146259878073, -3); (-235182376177, -2); (-265535342588, -3); (90764646004, -2); (-170564667599, -2); (253916346324, -2); (-33065770342, -1); (392174530049, -2); (445597570253, -2); (-431999636794, -2); (392527482466, -2); (-331317937667, -2); (254858406421, -2); (-171571112093, -2); (915007828738, -3); (-268103660655, -3); (-431864806484, -2); (-491788906001, -3); (16802511223, -1); (-315538247875, -2); (46938904121, -1); (-610832505372, -2); (724043205156, -2); (821915854024, -2); (-796559014111, -2); (723579818864, -2); (-610623794412, -2); (469642439349, -2); (-31613599440, -1); (168590104013, -2); (-493968256597, -3); (-796920302407, -2); (-914272692981, -3); (312259294478, -2); (-586084234156, -2); (871329842915, -2); (-113324718836, -1); (134259897160, -1); (152283426196, -1); (-147539056842, -1); (133988894454, -1); (-113052092294, -1); (869401855769, -2); (-585188323083, -2); (312058743193, -2); (-914313711212, -3); (-147708203706, -1); (-170567381593, -2); (582386506847, -2); (-109261598409, -1); (162359123471, -1); (-211061245080, -1); (249940184560, -1); (283281091115, -1); (-274376388044, -1); (249121921253, -1); (-210161778872, -1); (161604157803, -1); (-108768488092, -1); (580004611747, -2); (-169935901183, -2); (-274865763286, -1); (-319234560994, -2); (108974200341, -1); (-204373051644, -1); (303564774093, -1); (-394456259822, -1); (466929222812, -1); (528848797928, -1); (-512088668190, -1); (464861407715, -1); (-392109008767, -1); (301488809663, -1); (-202910492875, -1); (108199639889, -1); (-317013205584, -2); (-513304594485, -1)].
Definition lc_l15 := [(-680785069834758720415639474411158, -27); (238745017514326997821156485019113, -26); (-465242845102783325191599249552755, -26); (718772824115353931241763434588054, -26); (-966226249821410824458253083175810, -26); (117462296405987632516973122991197, -25); (137789899126168106269697181462184, -25); (-134934014106405088952114122707755, -25); (123525684346135037690721109504686, -25); (-104841651035296343301874978543171, -25); (809699168274748848706416690423373, -26); (-546603488809294897645502880592397, -26); (292027667637585868975528360430087, -26); (-856461606004360269012387093190528, -27); (-131746947299013404376500165192919, -25); (-122718981403933245715089982849120, -26); (427596204942486666535054372202260, -26); (-825835967922397073027526852596492, -26); (126456344181557269130226932879279, -25); (-168734305251226192933017134229468, -25); (203976946972231258538251173123933, -25); (237606567237999486999063094555656, -25); (-232190704551220823157248587308745, -25); (212233017647467535144555313817502, -25); (-179929699448666385154758595826655, -25); (138848763613619443944534584549430, -25); (-936798691491976520179348825327132, -26); (500310847035691450118563647942716, -26); (-146703443282799299851273296871457, -26); (-227851922129251155872711371292940, -25); (-220822537577858885746591192674016, -26); (765653501604682955348130648570056, -26); (-146857701306731479110850533658352, -25); (223316166407327496307055988092532, -25); (-296228814970117506055545468178798, -25); (356491240969829818148060474619749, -25); (412916377298028744429132055821708, -25); (-402807386079817808432187736501364, -25); (367718964804530498872558942596485, -25); (-311460998432956095633038805325138, -25); (240188515835349572884236696670138, -25); (-161977145818397950280456999866121, -25); (864801332397198536611214972369892, -26); (-253540435929255628649979439096504, -26); (-396908401362790075248018816968537, -25); (-397468522270383835376285711756371, -26); (137295776593579597478309018469417, -25); (-261941612296241967339794595049323, -25); (396153134130023850589737271507331, -25); (-523058887064547926249941927014087, -25); (627209757323754209256444316621020, -25); (723171814515327168477259866243440, -25); (-704474715657072835932427386172234, -25); (642441952513842622155014132252580, -25); (-543738993333094748707343041376327, -25); (419082289480392299146804519405050, -25); (-282509770902523654710545515199781, -25); (150795369368951004230778543672086, -25); (-442039985884800813428656347880730, -26); (-696475261296290902737270102419868, -25); (-716688109722111121050255829396986, -26); (246847442017865582130097090762103, -25); (-469010233458148165339409757566873, -25); (706308690063659824819999617115105, -25); (-929163426391210714730876980233316, -25); (111100892421312331071205416347470, -24); (127630876996854387000059043484699, -24); (-124189133786089696397270357348326, -24); (113157710655561305435949814131901, -24); (-957125114822049662479908807633777, -25); (737360924462833895651264583823883, -25); (-496908620795507845441410923323230, -25); (265180898213500196656557678134748, -25); (-777264307564290584493625131034868, -26); (-123109877837792356270281881636252, -24); (-129591061971905330596309120020440, -25); (445356437203252486057225148773231, -25); (-843479458028187792882790810157900, -25); (126604525893048729549081093965412, -24); (-166073452145038327117102407441377, -24); (198129438142640549942608287778503, -24); (226942726632100691293199612103459, -24); (-220618328876755881671010876290757, -24); (200881957478558658574691766561974, -24); (-169824958433226615377492987087627, -24); (130782642203381553665045637544399, -24); (-881115996928667444443768343901454, -25); (470138545754922394471266501202381, -25); (-137788762614802068238751277803663, -25); (-219176521063409338771110792319522, -24); (-235147268966403254388549242444240, -25); (806734675730673144655148223649928, -25); (-152414826809378248276023061870669, -24); (228184490215900973866004753357739, -24); (-298650369871108429028177226743636, -24); (355666306844077641400132185776309, -24); (406437746752981128146950255134935, -24); (-394812834946508555334528022186123, -24); (359287819255770731293055501452539, -24); (-303611008999867729375941301671829, -24); (233738977670215623234524198230525, -24); (-157441928495429209844426246429358, -24); (839949558184132631839177748389810, -25); (-246155519313138549936845201368383, -25); (-392922516031210216192929605290122, -24); (-428363948569095840821763502854111, -25); (146769088385298966313232915138583, -24); (-276762234481618911202302613954065, -24); (413524854970564392231615263869989, -24); (-540279839475180684417750210160146, -24); (642528862770479737731849493478848, -24); (732871505653103270583372071525007, -24); (-711467346772302772606417297242682, -24); (647141950448958685198052227758744, -24); (-546662422233305061804549461273077, -24); (420746023239141529334726628553226, -24); (-283355339180254541871496140977655, -24); (151152293650119756255141239884707, -24); (-442940339332636544709915517080676, -25); (-709076968053699702778970177668368, -24); (-783595351119870976628802263636458, -25); (268211540266987844693232014012035, -24); (-505028172019709042801577660868361, -24); (753427665039090517625267406168017, -24); (-983026768826167387466944469375027, -24); (116777718927268316334243529749965, -23); (132994165737877802793662044780206, -23); (-129042839517008679983453936736687, -23); (117328538400367024301077769534605, -23); (-990812476592693751699152883641692, -24); (762424670030519799556467947168414, -24); (-513384977185986242638499579106025, -24); (273832863129047337552916699321164, -24); (-802407237556163696924268149086025, -25); (-128761992034126917212513504636041, -23); (-143947470709756941524794385682573, -24); (492328971347832618213587510026268, -24); (-925987857856753248708644801561868, -24); (137978777590095130005621977651638, -23); (-179833318952830649433658806340676, -23); (213442989774296503623669650465527, -23); (242776911974335564535819798502547, -23); (-235459415228875240396965800582770, -23); (214010519536344110142844914969343, -23); (-180679672675823614568802756299126, -23); (139005942938840861659509161787158, -23); (-935889883658051646782125092206517, -24); (499152531258973034955249614860724, -24); (-146259878073335513246282776957868, -24); (-235182376176656639118834979116430, -23); (-265535342587568046226359459973842, -24); (907646460040234877575524074211406, -24); (-170564667598858223692042297838629, -23); (253916346324380667181469134914878, -23); (-330657703420111658340390044144226, -23); (392174530049047927775350172534451, -23); (445597570253239351808522194200609, -23); (-431999636794063341830478059902708, -23); (392527482465604246028361038005952, -23); (-331317937667139658544089226015657, -23); (254858406421151240942889285431077, -23); (-171571112093166815193507950176966, -23); (915007828737768311758547858392052, -24); (-268103660654951880076546043611482, -24); (-431864806483922428259297344968248, -23); (-491788906000710439528483280348470, -24); (168025112229538424047795691794863, -23); (-315538247875337117426849822674240, -23); (469389041210235490876870599947953, -23); (-610832505372102735862135419667281, -23); (724043205156329605237434787339999, -23); (821915854024029991810100948941526, -23); (-796559014111108944043157683768021, -23); (723579818864099724370833998520485, -23); (-610623794411926641185466845428263, -23); (469642439348761701865431869728092, -23); (-316135994399963850315123675174904, -23); (168590104013315455770762799950928, -23); (-493968256597486353215625018711004, -24); (-796920302407097491589180187734256, -23); (-914272692980798144180138885854272, -24); (312259294477746104131312535704761, -23); (-586084234156001860553806244827222, -23); (871329842914763072898369741435482, -23); (-113324718835685394941184586788469, -22); (134259897160001423302871270737259, -22); (152283426195774437898323844675542, -22); (-147539056842114639216953490410655, -22); (133988894453628994489082283393395, -22); (-113052092293983642567929463832473, -22); (869401855769279430580908791222406, -23); (-585188323083149226166909940256737, -23); (312058743193370639568322656589848, -23); (-914313711211743903425122984126065, -24); (-147708203706465095329191136844035, -22); (-170567381593365751816664357303396, -23); (582386506847402344154236329979597, -23); (-109261598409224067343280959649247, -22); (162359123471047713601060311250939, -22); (-211061245080149772841054030442193, -22); (249940184559617196825603107666041, -22); (283281091115463344790407637441763, -22); (-274376388043934298223465557916600, -22); (249121921253414162081659291782743, -22); (-210161778872189664520676134467800, -22); (161604157802914877720175387895460, -22); (-108768488092370725436985210493222, -22); (580004611747160661643881676509714, -23); (-169935901183106346138994622864673, -23); (-274865763285621134189303540120447, -22); (-319234560993505071744889627658065, -23); (108974200340731832037006320880666, -22); (-204373051643812628752868603796256, -22); (303564774093214910301827602583364, -22); (-394456259821766761713733878958985, -22); (466929222811893130067032089309275, -22); (528848797928288206491158327714146, -22); (-512088668190242420564329942449373, -22); (464861407715394628813370703710896, -22); (-392109008767107684574246628807433, -22); (301488809662550024533771873615455, -22); (-202910492875049441349803738701300, -22); (108199639889398063533074684482629, -22); (-317013205584385266813824024658297, -23); (-513304594484973530905703221031331, -22)].
(* generated_coeffs.hpp:246, :516 *)
Definition la_d16 := [(678811485294, -14); (-254981560167, -14); (190909917814, -14); (130038636167, -14); (-10994139781, -13); (928810382461, -15); (-778400292638, -15); (642913073058, -15); (-519591764617, -15); (40712132102, -14); (-305112838734, -15); (213868739423, -15); (683510931381, -16); (-155293958635, -14); (-134342751559, -15); (-195156840006, -16); (146883557391, -13); (155633809847, -13); (-414132717597, -14); (-219345482568, -14); (178743918154, -14); (-147829989567, -14); (122248349189, -14); (-100078933566, -14); (80388482228, -14); (-627151628945, -15); (468554602992, -15); (-327706017463, -15); (-104467756263, -15); (281624066329, -14); (205533641771, -15); (29811971512, -15); (13031488757, -12); (33836054138, -12); (237896279206, -13); (349652217282, -14); (-261183969113, -14); (206262230134, -14); (-16592708238, -13); (133445175088, -14); (-105910023568, -14); (819360728619, -15); (-608529289731, -15); (423816016176, -15); (134461891658, -15); (-5501892634, -12); (-265040935249, -15); (-383332614651, -16); (133402027363, -13); (320395557787, -13); (453551063259, -13); (373989972041, -13); (-752716211389, -14); (435798231924, -14); (-302623842372, -14); (223860976756, -14); (-16860315402, -13); (12598276945, -13); (-913650835738, -15); (62593432646, -14); (194986345721, -15); (678462253282, -13); (-387087528109, -15); (-553795862795, -16); (137527040949, -13); (30468942878, -12); (490485387199, -13); (81454747949, -12); (422891298488, -13); (-813602844568, -14); (453707368666, -14); (-30426448597, -13); (217120095071, -14); (-156962068732, -14); (11141466517, -13); (-752443887086, -15); (-230806350741, -15); (593603918071, -13); (460929012641, -15); (653498025627, -16); (134381190018, -13); (316307469464, -13); (465043796221, -13); (712277617589, -13); (921151518922, -13); (456508537612, -13); (-844642793523, -14); (454380119921, -14); (-293743652118, -14); (201131394853, -14); (-138126417499, -14); (913338905275, -15); (274062032276, -15); (642830051583, -13); (-551919591018, -15); (-772613934738, -16); (136877916708, -13); (307250535497, -13); (484126854179, -13); (771876047046, -13); (805272007369, -13); (994428614739, -13); (473626526138, -13); (-844803342104, -14); (437957742267, -14); (-271671446709, -14); (176767465118, -14); (-113163758565, -14); (-328859657487, -15); (60863467025, -12); (670277294016, -15); (921436520028, -16); (134840860539, -13); (314556216268, -13); (469089785472, -13); (730303197571, -13); (872949741646, -13); (869221300998, -13); (103173338649, -12); (473626526138, -13); (-814115395141, -14); (405105896059, -14); (-238961029634, -14); (145101860274, -14); (401708419647, -15); (634461232134, -13); (-833429576667, -15); (-11156196489, -14); (136534910994, -13); (30852699937, -12); (481311754323, -13); (761792585833, -13); (82566945749, -12); (942391440436, -13); (901815040283, -13); (103171733163, -12); (456508537612, -13); (-753689219466, -14); (357023264943, -14); (-196851953058, -14); (-503984977066, -15); (614011467225, -13); (10748762191, -13); (138110704035, -15); (135108799033, -13); (313575683201, -13); (471183268286, -13); (736838477566, -13); (861478803848, -13); (891305065718, -13); (977679500872, -13); (901882315409, -13); (994377359681, -13); (422891298488, -13); (-665675354067, -14); (295409382069, -14); (657819091304, -15); (630669295149, -13); (-146928287866, -14); (-176474389069, -15); (136316092922, -13); (309317756236, -13); (479663433694, -13); (75711645244, -12); (83318432003, -12); (929877390627, -13); (9248669546, -11); (977515436513, -13); (869437252032, -13); (921054218114, -13); (373989972041, -13); (-553173970039, -14); (-912793809372, -15); (616885513013, -13); (222414951539, -14); (236026969602, -15); (135296349037, -13); (312904546822, -13); (47255657717, -12); (740466661773, -13); (855995373964, -13); (899635050041, -13); (964455266917, -13); (925195872689, -13); (941859356858, -13); (805687246461, -13); (814379117728, -13); (311572428139, -13); (140674278045, -14); (628342944282, -13); (-420088450714, -14); (-338333283687, -15); (135464177344, -13); (312312297256, -13); (473737221995, -13); (743294398053, -13); (852054113264, -13); (904978227002, -13); (957260945632, -13); (935028217356, -13); (927800074181, -13); (82790820516, -12); (76991449234, -12); (594982449645, -13); (155633809847, -13); (626421916452, -13); (517205830172, -13); (-111212603322, -14); (139145629896, -13); (297200191889, -13); (517801403484, -13); (-663991736447, -14); (400953505145, -14); (-288422816336, -14); (220571795868, -14); (-17202214642, -13); (133820251837, -14); (-102127769889, -14); (75132823097, -14); (-519808800401, -15); (-163692712838, -15); (311572428139, -13); (323598124258, -15); (465948022208, -16); (136145629673, -13); (309923000777, -13); (478442967765, -13); (75406523698, -12); (837588989689, -13); (923608077581, -13); (933908534767, -13); (963845760513, -13); (892390852211, -13); (871900993886, -13); (713014722355, -13); (678163782618, -13); (-27092921687, -13); (618906696116, -13); (237896279206, -13); (544740948874, -15); (135957453899, -13); (310584108762, -13); (477135985928, -13); (75103107247, -12); (841711383765, -13); (918212992871, -13); (940823921545, -13); (955037055202, -13); (9037289714, -11); (856776736756, -13); (734976080466, -13); (638674252141, -13); (33676577571, -12); (621006168883, -13); (456701566631, -13); (678811485294, -14)].
Definition la_l16 := [(678811485293852371294514311400453, -35); (-254981560166642060794569067228638, -35); (190909917813672352877801175229420, -35); (130038636167335289131149058789750, -35); (-109941397810467496743881733363378, -35); (928810382461165787713007929583067, -36); (-778400292638016970213471818843129, -36); (642913073058191572480402310603516, -36); (-519591764617300727073793902583398, -36); (407121321020350344602879245931763, -36); (-305112838734354656103913206664628, -36); (213868739423092125277034461916634, -36); (683510931380568197932759579296331, -37); (-155293958635445852534156874682570, -35); (-134342751558613532849595377351067, -36); (-195156840005830940114810271390690, -37); (146883557390946385758642521469263, -34); (155633809846619732157109592485944, -34); (-414132717596763996878861232853917, -35); (-219345482567798016982323843681041, -35); (178743918153624175343071841289058, -35); (-147829989566992546596208722498436, -35); (122248349189014866625509839220072, -35); (-100078933565830982842652679008346, -35); (803884822279940961686355000181995, -36); (-627151628945023668023605338992174, -36); (468554602991504934816921554325165, -36); (-327706017463433279300993976240050, -36); (-104467756262960729780516285484119, -36); (281624066329179723974536344229666, -35); (205533641770747263601026242237198, -36); (298119715119924600006781741765009, -37); (130314887570029239238070779942658, -34); (338360541380276180593656116868798, -34); (237896279206231962024812769005616, -34); (349652217282333762047567566641019, -35); (-261183969113449188384120696449657, -35); (206262230133837007802008817731631, -35); (-165927082379871426000051462803313, -35); (133445175087720853587420167870525, -35); (-105910023568189585536302557340930, -35); (819360728618994732230322769157078, -36); (-608529289730636770195138989976567, -36); (423816016176219956789937505986881, -36); (134461891657840509651754065444609, -36); (-550189263400219470130649699861349, -35); (-265040935248507636968787866946170, -36); (-383332614651404512547242794488369, -37); (133402027362754284067900662363016, -34); (320395557786961649790658295553046, -34); (453551063258562077032403018991998, -34); (373989972041441830203754326368696, -34); (-752716211388616522865856954022408, -35); (435798231923588344843112214714441, -35); (-302623842372018278324271394385074, -35); (223860976756049347672080923707275, -35); (-168603154019661600337826224358255, -35); (125982769450141872687683280008835, -35); (-913650835738432921668043535352149, -36); (625934326460294421810833241733622, -36); (194986345721210110687336877989096, -36); (678462253281563804520834767661078, -34); (-387087528108609216096437675937933, -36); (-553795862795328163738964832596964, -37); (137527040949456381585719692773963, -34); (304689428780194995010284424119904, -34); (490485387199112662446557436788485, -34); (814547479489546900093434676951639, -34); (422891298487506345473280197575900, -34); (-813602844568463378031886725894453, -35); (453707368665636325875087328546242, -35); (-304264485970265102036782781614618, -35); (217120095070617941088324752289254, -35); (-156962068732266188109902536961831, -35); (111414665170165347439732078861472, -35); (-752443887085733211963936880960639, -36); (-230806350741480777897190755212045, -36); (593603918070741529829473498398750, -34); (460929012640643666572498339346957, -36); (653498025627462459581939919122352, -37); (134381190018423601612728088869929, -34); (316307469463899425607317444310215, -34); (465043796221450675754501548802689, -34); (712277617588559187531155126205067, -34); (921151518921634601747533085146769, -34); (456508537612308972166909169923050, -34); (-844642793523074838713993385383526, -35); (454380119920973210288173064487636, -35); (-293743652117923594369543773037534, -35); (201131394852731722720980289781172, -35); (-138126417498597858451122992075628, -35); (913338905274806437438626010877776, -36); (274062032275837566195147338256161, -36); (642830051583429101538245285291243, -34); (-551919591017902593455885724942517, -36); (-772613934738410359920452470569326, -37); (136877916707669093796072977755514, -34); (307250535496773673535467999086984, -34); (484126854179133761310679478949778, -34); (771876047046273585479673839730614, -34); (805272007369102555810475990728894, -34); (994428614738752770173381402428347, -34); (473626526137671240713491808020708, -34); (-844803342103768353509484825593283, -35); (437957742267448243151600841104754, -35); (-271671446709042054123135194433941, -35); (176767465118347190532670583864947, -35); (-113163758564593222063565130415360, -35); (-328859657486953683278381006855350, -36); (608634670250274359810760616176631, -34); (670277294016365106867027648281658, -36); (921436520028463808704116130765519, -37); (134840860538742010450198746149325, -34); (314556216268109001147002995040442, -34); (469089785472300272980955261528415, -34); (730303197571048941354241594350898, -34); (872949741645916896358873914595194, -34); (869221300997873120018658255735624, -34); (103173338648571931677793209860074, -33); (473626526137671240713491808020708, -34); (-814115395141348258395630625822473, -35); (405105896059101351360844044229058, -35); (-238961029633899250721651869932213, -35); (145101860273950004516207947834509, -35); (401708419646579077875118588490492, -36); (634461232134128682468737924001618, -34); (-833429576666983726105394093854658, -36); (-111561964889861953717011547542351, -36); (136534910993508884618823314750660, -34); (308526999370481088652267711589327, -34); (481311754322642949984184395260656, -34); (761792585832743446252620951944955, -34); (825669457489739518674462366173683, -34); (942391440436410303770772717149853, -34); (901815040283245160398166309592652, -34); (103171733162764996529838295457977, -33); (456508537612308972166909169923050, -34); (-753689219466219108009726899949692, -35); (357023264943244728763535265323259, -35); (-196851953057597412758638743311610, -35); (-503984977065996129309825933832687, -36); (614011467224921295887995150851304, -34); (107487621910132482951239892085417, -35); (138110704034687264617477341016161, -36); (135108799033143011799320922360968, -34); (313575683200654272093191092524009, -34); (471183268286057487383900554617762, -34); (736838477565867125663535444851246, -34); (861478803848239309757550648847983, -34); (891305065717556150224985864617174, -34); (977679500872368991630661894202877, -34); (901882315408778848839474883186791, -34); (994377359681464282137007012435545, -34); (422891298487506345473280197575900, -34); (-665675354066632396859260242142458, -35); (295409382069278304329079125613317, -35); (657819091304446930393476085198443, -36); (630669295148526692382020779769688, -34); (-146928287866487383969318987772537, -35); (-176474389068590732681683049387217, -36); (136316092921565802422641827112687, -34); (309317756236027363207345816191998, -34); (479663433693550016210589914770610, -34); (757116452440267989624189088090914, -34); (833184320029998503677792067150916, -34); (929877390626584104367600962281925, -34); (924866954599737546659775523670688, -34); (977515436512544309259410755479923, -34); (869437252032259109849507118374656, -34); (921054218113874343233146090554041, -34); (373989972041441830203754326368696, -34); (-553173970038944442584533567009958, -35); (-912793809372218547643911058115780, -36); (616885513013066416044273078542746, -34); (222414951539018470172225190192333, -35); (236026969601619019100219991707471, -36); (135296349036562863191162942201955, -34); (312904546821617165141440676077688, -34); (472556577169880921728028129867975, -34); (740466661773180896227734476220056, -34); (855995373963959978740743695689147, -34); (899635050040873503460093591141703, -34); (964455266917309385424293315073437, -34); (925195872688501219803829673392555, -34); (941859356858218591189075637583719, -34); (805687246460556153515767050519785, -34); (814379117727585345112376205942748, -34); (311572428138834680131190705480041, -34); (140674278045478759427331892975439, -35); (628342944281682934073314379887084, -34); (-420088450714280999606686330035426, -35); (-338333283686824424560906113468200, -36); (135464177343650549658896080538326, -34); (312312297255869071612024347826730, -34); (473737221994756451413615275588859, -34); (743294398052968611059339437194141, -34); (852054113264462927626796448541722, -34); (904978227001818534716954789844280, -34); (957260945631925579711248883942250, -34); (935028217356440994764432632119408, -34); (927800074181317198993439212095943, -34); (827908205159650273412253211022894, -34); (769914492339663462105741037105497, -34); (594982449644751387864927776537115, -34); (155633809846619732157109592485944, -34); (626421916452303693055391350722483, -34); (517205830172140323737511661296623, -34); (-111212603321759114997396591891728, -35); (139145629895638718504511923414773, -34); (297200191888691588371485995674345, -34); (517801403483892024010294171014774, -34); (-663991736447016847048675532053550, -35); (400953505144565374307933446320152, -35); (-288422816336006468552572977376197, -35); (220571795868412616231539426488608, -35); (-172022146419669039973096990320212, -35); (133820251837444408737247487043966, -35); (-102127769889472877941833005373477, -35); (751328230970276417977417651733669, -36); (-519808800401357381093296892700162, -36); (-163692712837770082722149110579910, -36); (311572428138834680131190705480041, -34); (323598124258300232159740814325638, -36); (465948022207611067739920078135380, -37); (136145629673421878771450105074579, -34); (309923000776661059217701644317442, -34); (478442967764949000419313416680693, -34); (754065236980190028109460042637158, -34); (837588989688822743624257167460229, -34); (923608077581436902887448595580193, -34); (933908534766570396068241599254363, -34); (963845760513329624026988762321747, -34); (892390852211234243553617458072937, -34); (871900993886357609784972464796766, -34); (713014722354650284202751896073291, -34); (678163782617691307275446380946217, -34); (-270929216870367162794369318969099, -35); (618906696115907160694482035900213, -34); (237896279206231962024812769005616, -34); (544740948874123502083208233743262, -36); (135957453898776305199017672551481, -34); (310584108761858896116286425392592, -34); (477135985928050059378121491784742, -34); (751031072470227206968547784804039, -34); (841711383764809187500531602692482, -34); (918212992870790951604556278871934, -34); (940823921544760565702179592935380, -34); (955037055201722651129118334229847, -34); (903728971400006286456688260550269, -34); (856776736756059440620948568488138, -34); (734976080466150131494393746858418, -34); (638674252141213945515797098428339, -34); (336765775709903670393676091694752, -34); (621006168883438439009611066340916, -34); (456701566631096688761845420488289, -34); (678811485293852371294514311400453, -35)].
Definition lb16 := [(1357622970587704742589028622800905175613368778338039899530515953690205683210808662466288961451544044994871299770430337735418759871162609791418822630773399027093393816289385867376644876297089520357890246472587023348663853435641274731130778810880142928295412991382841805703061008829027988806128058003877547703, -308); (3112676196932394643142191849718884713749325417645342895065175790976786944352190953060585476842586726633387042185052937420475513669653442921875217346393677695151252891643356164272210626109425362223674574637359392642649408929261050071846664767069267777862785259157274378109866792034473765563004995461123720529, -308); (4757925584124639240496255380112311317763175159185632907841114361481587978884097972351247866040249324450629457481047074153017406052666142352608634091968155261569803133210129419689677879310915390463774922804632121893030806903630733227532371010258715467310191934084094369686618647297362276785200433935585656443, -308); (7479799440828836604075086527373927448524553410391823340271098109368020201020899122588931920152962903703334893554907760087208044119739021846663675543538419463877819292392990563955012739273696937670870798163232266833383332792624825155101056584136757378665446813971497954241549768890585904509983692531883301132, -308); (8457825969750126909465603951517998110581973670801414087254146784040183210496526546607766127103911402378083315145871556505351225970087428386726254792813881494456321387133675296521599239958266595762668703761285737647214482204979808287244652472065431660642450331817808298224851314543816918196374671122526857723, -308); (9130170752246179443338183398460996969177811182732464120924757218971523247505558748020021255849263765702251237340823601796617072658837518386156439509699275247966444901838896699176304727316467884355196905923215179837443757065114440558067867598943153303747325047599574406585243190904299767503059938028225420036, -308); (9472530522753424814269836160414155257345449419795148751875662260001144538456650315006698891676697614126690282160482116485418260877020036558451940947159222057979078063835592298080867490879871398916844560450980131471324530736467199090820189703094192060817254372017848232325943497636379982407485883403531555198, -308); (9472530522753424814269836160414155257345449419795148751875662260001144538456650315006698891676697614126690282160482116485418260877020036558451940947159222057979078063835592298080867490879871398916844560450980131471324530736467199090820189703094192060817254372017848232325943497636379982407485883403333344607, -308); (9130170752246179443338183398460996969177811182732464120924757218971523247505558748020021255849263765702251237340823601796617072658837518386156439509699275247966444901838896699176304727316467884355196905923215179837443757065114440558067867598943153303747325047599574406585243190904299767503059938027679422200, -308); (8457825969750126909465603951517998110581973670801414087254146784040183210496526546607766127103911402378083315145871556505351225970087428386726254792813881494456321387133675296521599239958266595762668703761285737647214482204979808287244652472065431660642450331817808298224851314543816918196374671122127735933, -308); (7479799440828836604075086527373927448524553410391823340271098109368020201020899122588931920152962903703334893554907760087208044119739021846663675543538419463877819292392990563955012739273696937670870798163232266833383332792624825155101056584136757378665446813971497954241549768890585904509983692532133026079, -308); (6231448562776693602623814109600821007244342961110133997237529521470548196073267679898459500882784218010752472361384615816493716780833799756099015137653969751905886513655973690927682420854266910249079287786708146326289827932280668878256419053552339422659133249969060555122865779864053396228762327513866744923, -308); (3112676196932394643142191849718884713749325417645342895065175790976786944352190953060585476842586726633387042185052937420475513669653442921875217346393677695151252891643356164272210626109425362223674574637359392642649408929261050071846664767069267777862785259157274378109866792034473765563004995461219664102, -308); (6231448562776693602623814109600821007244342961110133997237529521470548196073267679898459500882784218010752472361384615816493716780833799756099015137653969751905886513655973690927682420854266910249079287786708146326289827932280668878256419053552339422659133249969060555122865779864053396228762327513836001130, -308); (4757925584124639240496255380112311317763175159185632907841114361481587978884097972351247866040249324450629457481047074153017406052666142352608634091968155261569803133210129419689677879310915390463774922804632121893030806903630733227532371010258715467310191934084094369686618647297362276785200433935552934972, -308); (1357622970587704742589028622800905175613368778338039899530515953690205683210808662466288961451544044994871299770430337735418759871162609791418822630773399027093393816289385867376644876297089520357890246472587023348663853435641274731130778810880142928295412991382841805703061008829027988806128058003895390404, -308)].
(* generated_coeffs_co.hpp:85, :175 *)
Definition lc_d16 := [(135465586136, -3); (-460681378644, -3); (858568449226, -3); (162980773271, -2); (-191373075459, -2); (209118614227, -2); (-215005805361, -2); (209102196956, -2); (-192558853554, -2); (167352394854, -2); (-136020107465, -2); (101435436481, -2); (349584899424, -3); (-126514772221, -2); (-666637158937, -3); (-101468413497, -3); (213698102776, -3); (-726651643726, -3); (135400497598, -2); (256884012865, -2); (-301529366071, -2); (329366429733, -2); (-338510199896, -2); (329093246868, -2); (-302951042108, -2); (263211004983, -2); (-213873281272, -2); (159457537089, -2); (549388050833, -3); (-199469441956, -2); (-104777723912, -2); (-159451248582, -3); (346179119633, -3); (-117700185017, -2); (219273022557, -2); (415757248556, -2); (-48783096658, -1); (532653734382, -2); (-54721752228, -1); (53178220307, -1); (-489355244891, -2); (425019022201, -2); (-345249335639, -2); (257344885137, -2); (886360944216, -3); (-322941047852, -2); (-169066473638, -2); (-257233463555, -3); (574550352097, -3); (-195322920657, -2); (363807852892, -2); (689373052502, -2); (-808563814694, -2); (882487707688, -2); (-90623080632, -1); (88030212690, -1); (-80975190926, -1); (703043156111, -2); (-570916490931, -2); (425446069346, -2); (146485258112, -2); (-535657887415, -2); (-279447771841, -2); (-425086576175, -3); (974350531965, -3); (-331198693789, -2); (616761497062, -2); (116794850685, -1); (-136934172241, -1); (149390267320, -1); (-153343263602, -1); (148892810876, -1); (-136905440570, -1); (118821135187, -1); (-964601175245, -2); (71863224066, -1); (24734741066, -1); (-907838500087, -2); (-47192743028, -1); (-717722787111, -3); (168363922015, -2); (-572230730911, -2); (106539436457, -1); (201624459762, -1); (-236298331196, -1); (257684480967, -1); (-264389235702, -1); (256607613941, -1); (-235854238546, -1); (204625562001, -1); (-166064781923, -1); (123686818860, -1); (425574146872, -2); (-156775672704, -1); (-812090209574, -2); (-12347824757, -1); (295639463017, -2); (-100469570232, -1); (187019319742, -1); (353713735801, -1); (-414383398482, -1); (451700815077, -1); (-463258223869, -1); (449437206599, -1); (-412927048006, -1); (358125546471, -1); (-290548498811, -1); (216348138448, -1); (744146145894, -2); (-275127845541, -1); (-142019377534, -1); (-215893605513, -2); (526250596088, -2); (-178820157069, -1); (332800603954, -1); (629058590823, -1); (-736681671297, -1); (802702972936, -1); (-822904397739, -1); (798032485588, -1); (-732925370648, -1); (635435727434, -1); (-515375934115, -1); (383663189492, -1); (131920441352, -1); (-489458676380, -1); (-251802659679, -1); (-382702042589, -2); (947565036431, -2); (-321948671849, -1); (599064314844, -1); (113170276042, 0); (-1324847178, 2); (144302499394, 0); (-147875817261, 0); (143350721831, 0); (-131607205015, 0); (114063450821, 0); (-924852549527, -1); (688324903560, -1); (236601170173, -1); (-880833748595, -1); (-451670881410, -1); (-686331209604, -2); (172273590251, -1); (-585264483576, -1); (108883438463, 0); (205581338088, 0); (-240584938695, 0); (26194890402, 1); (-268333992994, 0); (260025938266, 0); (-238640001381, 0); (206761920804, 0); (-167600285204, 0); (124708077425, 0); (428533180056, -1); (-160057445932, 0); (-818171957682, -1); (-124299857653, -1); (315760688896, -1); (-107262890124, 0); (199519643417, 0); (376514298828, 0); (-440478056515, 0); (479423779431, 0); (-490932241172, 0); (475562479272, 0); (-436302030665, 0); (37790326443, 1); (-306244199182, 0); (227819298486, 0); (782621932381, -1); (-293223157785, 0); (-149439347908, 0); (-226991026417, -1); (582744182866, -1); (-197938096312, 0); (368125245178, 0); (694346133517, 0); (-812051159771, 0); (883553153296, 0); (-904449702225, 0); (875834658132, 0); (-803269018581, 0); (695546285962, 0); (-563509250312, 0); (419112300517, 0); (143935745018, 0); (-540893277128, 0); (-274873153282, 0); (-417442822953, -1); (108174897022, 0); (-367400605899, 0); (683186806881, 0); (12879961745, 2); (-150588800347, 1); (163795687159, 1); (-167614079973, 1); (162258031464, 1); (-148768237169, 1); (128781100997, 1); (-104308452492, 1); (775638475396, 0); (266304976097, 0); (-100360632572, 1); (-508617894322, 0); (-772290003597, -1); (201805253626, 0); (-685345516814, 0); (127422371708, 1); (240118080284, 1); (-280659308193, 1); (305179823945, 1); (-312195241811, 1); (302124483788, 1); (-276924006275, 1); (239653853871, 1); (-194065559347, 1); (144278749072, 1); (495231982313, 0); (-18714653513, 2); (-945949168472, 0); (-143609669766, 0); (378085907103, 0); (-128390527786, 1); (23867584707, 2); (449573191723, 1); (-525335570894, 1); (571064800265, 1); (-584014964178, 1); (565006034048, 1); (-517730348572, 1); (447933981801, 1); (-362642590597, 1); (269556698933, 1); (925011744461, 0); (-350477943849, 1); (-176706004393, 1); (-268223687272, 0); (710965349508, 0); (-241411433735, 1); (4487199128, 3); (844866336634, 1); (-986986304382, 1); (107259835049, 2); (-109660216164, 2); (106060289636, 2); (-971592200995, 1); (840398658134, 1); (-680228297275, 1); (505529595199, 1); (173435763137, 1); (-658790428097, 1); (-331349220654, 1); (-502880009315, 0)].
Definition lc_l16 := [(135465586136337391900281724085720, -24); (-460681378644386487887601593772952, -24); (858568449225997832682178025409777, -24); (162980773270973641453271705140326, -23); (-191373075459200241155012678369982, -23); (209118614227476511733595116081119, -23); (-215005805360944102792070842260647, -23); (209102196956134013566894213456307, -23); (-192558853554248175112214812646667, -23); (167352394854122819317382764185891, -23); (-136020107464601806028832611356813, -23); (101435436480691009151354550549362, -23); (349584899423826116223953835347481, -24); (-126514772220659452690528051068934, -23); (-666637158937146244809428227231107, -24); (-101468413496771250043602267236614, -24); (213698102776088093102068660799828, -24); (-726651643725632218446143588957117, -24); (135400497598124126723163176832037, -23); (256884012864949079504936425309200, -23); (-301529366070543441468830308377036, -23); (329366429732966960126439914579969, -23); (-338510199896387421751648681176189, -23); (329093246868170466804924787798564, -23); (-302951042107920902295667436712553, -23); (263211004982918810348222158226231, -23); (-213873281272469159670876550910865, -23); (159457537089069805630466550391776, -23); (549388050833458226665432022937496, -24); (-199469441956459511222788101258213, -23); (-104777723912036782956698488667852, -23); (-159451248582420824011235117577176, -24); (346179119632867422180361892421379, -24); (-117700185017008697081301055775435, -23); (219273022556746252397254266645035, -23); (415757248555689025008358777852561, -23); (-487830966579960689466631515614827, -23); (532653734381584282987804801012083, -23); (-547217522280448760559629396267116, -23); (531782203070486394434035762705560, -23); (-489355244890849863842168778451261, -23); (425019022200676523612320885483864, -23); (-345249335639224360380912322534260, -23); (257344885137091979793774453797781, -23); (886360944215550505897410531842017, -24); (-322941047851843465008671486532367, -23); (-169066473638409420223747677415076, -23); (-257233463555048944287832531353201, -24); (574550352097123966490317496104936, -24); (-195322920656860278575451117520258, -23); (363807852891860964783365161250257, -23); (689373052502165243535062220123914, -23); (-808563814693808035476157014207225, -23); (882487707688357463693020080489212, -23); (-906230806320038789805912521008274, -23); (880302126900001059567728268232927, -23); (-809751909260216097761661351814071, -23); (703043156111107887506025238554071, -23); (-570916490931232484133173905374457, -23); (425446069345865902331058192014210, -23); (146485258112289369546657485307289, -23); (-535657887415311429504642910236961, -23); (-279447771840905246784522408141932, -23); (-425086576174537446598152390992177, -24); (974350531965399648673486895160017, -24); (-331198693789156486956133689529064, -23); (616761497062241239427037027146678, -23); (116794850684560995531332926186623, -22); (-136934172240668320329142423294719, -22); (149390267320388378279973984039555, -22); (-153343263602179146851662059439186, -22); (148892810876267542234066159031190, -22); (-136905440569801971249550807740509, -22); (118821135186836820226130106236059, -22); (-964601175244933638677916751161119, -23); (718632240660337806607026679908251, -23); (247347410659889856199754404325688, -23); (-907838500087137476824864565407325, -23); (-471927430280217558808508779772449, -23); (-717722787110710841393697038135016, -24); (168363922014979923355250012144451, -23); (-572230730910881338628620162021075, -23); (106539436457305440044304428759058, -22); (201624459762315877644928415037318, -22); (-236298331196368946463066509860859, -22); (257684480966715521912678004604370, -22); (-264389235702123098815177105870213, -22); (256607613941237459370375526806370, -22); (-235854238545739746079186248142472, -22); (204625562001404622897978310961085, -22); (-166064781922920821670660719103858, -22); (123686818860366106212148268851797, -22); (425574146871824866742651408982429, -23); (-156775672703677721966172668039817, -22); (-812090209574214146370064147860485, -23); (-123478247569652544992292596943630, -23); (295639463017022167804279124185411, -23); (-100469570232252270154846115651337, -22); (187019319741559276409937502125899, -22); (353713735800732417604294801682623, -22); (-414383398482399553659640868019392, -22); (451700815076961454669342550974257, -22); (-463258223869437976662935740888650, -22); (449437206598976949895417732939619, -22); (-412927048006168631631220764500189, -22); (358125546471211940486365444011457, -22); (-290548498810793334479105981735519, -22); (216348138448418583494311990487511, -22); (744146145894016621881345639152575, -23); (-275127845540867692898851482503563, -22); (-142019377534288192757231171850883, -22); (-215893605512744324979998181939147, -23); (526250596088382863972559969775324, -23); (-178820157069352342352547256350806, -22); (332800603954485044892262678778178, -22); (629058590822657732171314199065487, -22); (-736681671297085854353791765694255, -22); (802702972936204879978802472497388, -22); (-822904397739252557112708882974213, -22); (798032485587854402700157178692675, -22); (-732925370648378550505202258751760, -22); (635435727433751900219644818654459, -22); (-515375934115427657250097008484006, -22); (383663189492253977706619700051552, -22); (131920441352421336121270057662428, -22); (-489458676379515329967477445807620, -22); (-251802659679264751729285847065493, -22); (-382702042588865281266649200559407, -23); (947565036430903449640665785945322, -23); (-321948671848913610296358894484459, -22); (599064314843571740652132410237003, -22); (113170276042200029252856885256574, -21); (-132484717799703171531639852430712, -21); (144302499393943397971000718016006, -21); (-147875817260534326171352825233778, -21); (143350721830768467417306323818018, -21); (-131607205015484831587561504088862, -21); (114063450821080379111863443581742, -21); (-924852549527192292873645902077266, -22); (688324903560049336554445266216987, -22); (236601170172989736586014144059391, -22); (-880833748595017561920392325998345, -22); (-451670881409721173239982665410738, -22); (-686331209603907212105420324350209, -23); (172273590250514430799784071040663, -22); (-585264483575631486546433171245547, -22); (108883438463478578592329689603019, -21); (205581338087554129386881965253243, -21); (-240584938694816488729366701882097, -21); (261948904020391694197375057803596, -21); (-268333992994466946743589072609106, -21); (260025938266161633796276775969695, -21); (-238640001381177234205884008005390, -21); (206761920804096751298756009823921, -21); (-167600285203898629145930001818213, -21); (124708077425131338242926468690478, -21); (428533180055518198129945324690095, -22); (-160057445931818799762669078474389, -21); (-818171957682459101307551161794265, -22); (-124299857653248033167547417981923, -22); (315760688895882210232311092035000, -22); (-107262890123747067473050192246173, -21); (199519643417147285924522119350000, -21); (376514298828259568627938630150477, -21); (-440478056514774096893247323736062, -21); (479423779431057655464464639163514, -21); (-490932241172344318313226379903544, -21); (475562479272391469294284223711539, -21); (-436302030664672334673287212196292, -21); (377903264429747490970688017621934, -21); (-306244199181637611363413617880987, -21); (227819298485906332866534475739444, -21); (782621932380898963083888259899838, -22); (-293223157785053847250225304628886, -21); (-149439347908153424422177016959302, -21); (-226991026417088687863842085937837, -22); (582744182866121185237413753647345, -22); (-197938096311649591028306775784207, -21); (368125245178410352250250551137856, -21); (694346133516680423273414827373877, -21); (-812051159771349038486919924147219, -21); (883553153296300335165238777670035, -21); (-904449702225396765096183193685514, -21); (875834658131935830574279554145252, -21); (-803269018580641923822604919955700, -21); (695546285962339095525897011935226, -21); (-563509250312167449070680108206096, -21); (419112300516614172597797992326083, -21); (143935745017730938301449359870104, -21); (-540893277127645259415525823057143, -21); (-274873153282338733162107263965912, -21); (-417442822953457160346539119222824, -22); (108174897022043774913286819217461, -21); (-367400605899282814785510162318200, -21); (683186806881003286667446139847790, -21); (128799617450494569820119924796588, -20); (-150588800346528894251233324261117, -20); (163795687158529932084820192240820, -20); (-167614079972666936202694987964882, -20); (162258031463885973255229434671086, -20); (-148768237169146738063542139692607, -20); (128781100997480481543659027712950, -20); (-104308452491538952171934709223484, -20); (775638475396162988558284058656091, -21); (266304976097499642959649999835576, -21); (-100360632572114631043108723233254, -20); (-508617894321550326460552733481756, -21); (-772290003597422071278287698319203, -22); (201805253626465064381466294889615, -21); (-685345516813585467883937519823857, -21); (127422371708031566412290390870519, -20); (240118080284000218343044217113823, -20); (-280659308193092434626324973666100, -20); (305179823944878247369561231758514, -20); (-312195241811468291255503432087730, -20); (302124483787884063649787683687501, -20); (-276924006275222852695470862187051, -20); (239653853871372854702821295987993, -20); (-194065559347154342384697985197274, -20); (144278749072165805433202804535348, -20); (495231982313350082869824911346474, -21); (-187146535130246210704964047871247, -20); (-945949168472138123493071668835338, -21); (-143609669765500883728244171793124, -21); (378085907103031653818728155860857, -21); (-128390527785669622145796474457798, -20); (238675847070303124394510000933157, -20); (449573191722506532847975381049802, -20); (-525335570894090752107205676158958, -20); (571064800265115961080076962954542, -20); (-584014964178037905034669307091516, -20); (565006034047515201420659947896795, -20); (-517730348572118309323158345172440, -20); (447933981801193598842710187260520, -20); (-362642590597336915425893963137719, -20); (269556698932695389456710812495211, -20); (925011744460729384465661449729955, -21); (-350477943848595192894071681087866, -20); (-176706004392648546320388881630852, -20); (-268223687272014518817131952143896, -21); (710965349508295549690815343928992, -21); (-241411433735432732830550508129189, -20); (448719912799502667824377591195344, -20); (844866336634231526657628551693527, -20); (-986986304382097783357418124210916, -20); (107259835049051542222792229295468, -19); (-109660216164093621653132163886639, -19); (106060289636498706211628516006678, -19); (-971592200995287362219538694348032, -20); (840398658134252900492184533167933, -20); (-680228297274856186883108458943108, -20); (505529595199178494848567152044560, -20); (173435763137283681440950207903501, -20); (-658790428096974039978572929006612, -20); (-331349220653666687252507413684109, -20); (-502880009315234999769261500204813, -21)].
(* the specialisations; none for other values of nsteps (the general template throws) *)
Definition tab_la (long : bool) (s : Z) : list (Z * Z) := match s with
  | 2 => if long then la_l2 else la_d2
  | 3 => if long then la_l3 else la_d3
  | 4 => if long then la_l4 else la_d4
  | 5 => if long then la_l5 else la_d5
  | 6 => if long then la_l6 else la_d6
  | 7 => if long then la_l7 else la_d7
  | 8 => if long then la_l8 else la_d8
  | 9 => if long then la_l9 else la_d9
  | 10 => if long then la_l10 else la_d10
  | 11 => if long then la_l11 else la_d11
  | 12 => if long then la_l12 else la_d12
  | 13 => if long then la_l13 else la_d13
  | 14 => if long then la_l14 else la_d14
  | 15 => if long then la_l15 else la_d15
  | 16 => if long then la_l16 else la_d16
  | _ => [] end.
(* the specialisations; none for other values of nsteps (the general template throws) *)
Definition tab_lb (long : bool) (s : Z) : list (Z * Z) := match s with
  | 2 => lb2
  | 3 => lb3
  | 4 => lb4
  | 5 => lb5
  | 6 => lb6
  | 7 => lb7
  | 8 => lb8
  | 9 => lb9
  | 10 => lb10
  | 11 => lb11
  | 12 => lb12
  | 13 => lb13
  | 14 => lb14
  | 15 => lb15
  | 16 => lb16
  | _ => [] end.
(* the specialisations; none for other values of nsteps (the general template throws) *)
Definition tab_lc (long : bool) (s : Z) : list (Z * Z) := match s with
  | 2 => if long then lc_l2 else lc_d2
  | 3 => if long then lc_l3 else lc_d3
  | 4 => if long then lc_l4 else lc_d4
  | 5 => if long then lc_l5 else lc_d5
  | 6 => if long then lc_l6 else lc_d6
  | 7 => if long then lc_l7 else lc_d7
  | 8 => if long then lc_l8 else lc_d8
  | 9 => if long then lc_l9 else lc_d9
  | 10 => if long then lc_l10 else lc_d10
  | 11 => if long then lc_l11 else lc_d11
  | 12 => if long then lc_l12 else lc_d12
  | 13 => if long then lc_l13 else lc_d13
  | 14 => if long then lc_l14 else lc_d14
  | 15 => if long then lc_l15 else lc_d15
  | 16 => if long then lc_l16 else lc_d16
  | _ => [] end.
