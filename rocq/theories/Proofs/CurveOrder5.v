(** Orders of the generators of built-in curves, checked by evaluation.  Generated by tools/gen_orders.py. *)
From Coq Require Import ZArith List Znumtheory.
From Verif Require Import Proofs.EcCheck Proofs.PrimeChain.
Import ListNotations.
Local Open Scope Z_scope.

(** GOST2012_tc26_A *)
Definition chain_GOST2012_tc26_A : list pcert := [
  PPock 1 5 1 2 [(2, 2%nat, 2)];
  PPock 1 11 1 4 [(5, 1%nat, 4)];
  PPock 1 3 1 2 [(2, 1%nat, 1)];
  PPock 1 199 182 64 [(11, 1%nat, 136); (3, 1%nat, 163)];
  PPock 1 797 284 16 [(199, 1%nat, 372)];
  PPock 2 234319 45731 62383 [(797, 1%nat, 169904)];
  PPock 2 1862367413 682815852 692527988 [(234319, 1%nat, 416608399)];
  PPock 1 7 1 3 [(3, 1%nat, 1); (2, 1%nat, 3)];
  PPock 1 29 16 4 [(7, 1%nat, 2); (2, 1%nat, 14)];
  PPock 1 17 16 9 [(2, 3%nat, 8)];
  PPock 2 248473 222962 38642 [(29, 1%nat, 229556); (17, 1%nat, 196112); (3, 1%nat, 130363)];
  PPock 2 2484731 1349850 1024 [(248473, 1%nat, 2064537)];
  PPock 3 4794071398071855509 3626427358922762792 2265812407970663878 [(1862367413, 1%nat, 296497911247195271); (2484731, 1%nat, 1366323612813393099)];
  PPock 4 2191024862917983979567253 1280942684510305769127082 79366990424722299700761 [(4794071398071855509, 1%nat, 572286406947347187477645)];
  PPock 6 523346702223548665483816512060289357746373 101626293431052509159537072186504208007292 8291278837013116136956800817755367461871 [(2191024862917983979567253, 1%nat, 49280266304176971047130539411040743432150)];
  PEc (ec_job 9 198044010970385664237906237168137906646888206604649217364549970843894559 77716221974186228006312773762861330437434127313226495911586506863093750 198044010970385664237906237168137906646888206604649217364549970843894556 154167955885839860754464670535144590706618604506992733509754244900407350 109057487862984144956670587064419593020485775118492811048470442696059196 188471425609283539856023670318067769950323841372294309171493259063290987 523346702223548665483816512060289357746373 185675669959590043500039105587930962423530702922870992857939558947443788 116166631536541030937888725758066179157973438875727333576483533442260649 66014670323461888079302079056045968882296068868216405788183323614631520) 523346702223548665483816512060289357746373;
  PPock 11 2659996905859338126918446182385457656019111335144863285682205604819957136479606547069362565401 277471863084850561866540507143373775554968713307421132090621449898960435523860925212221847647 908111122206345569134717765074954669951349107395901271096422618080689527808994510871794853283 [(198044010970385664237906237168137906646888206604649217364549970843894559, 1%nat, 287629943687499855034247882754943958838762836083044160640687466627369842449173471520214632041)];
  PEc (ec_job 14 168269685222720808467007974051700020069694652155478645994405010861132660398595497409617303178171605916112726157719250328273 159579965894324094373644596943420184738582168846886807541079985339666966866235644291328718088256640355691250051698898248385 168269685222720808467007974051700020069694652155478645994405010861132660398595497409617303178171605916112726157719250328270 16382975506422221601373621327302133960367460980233319951279564522638144176492128221362866053072562823057789957028095264571 111511219950280770675232306849814480024446718864008156847912183199297853303021455528857683632561436775616098879281515068820 37658329126786035376285048849283603662868141244789987572837325994516771805380370893938048792557723260235497572625931467215 2659996905859338126918446182385457656019111335144863285682205604819957136479606547069362565401 133822466669305246790807900878331511306409921539077881586202141315189095080758145626751453021787561721444121079843437888244 141900866103860334860990075869592511437456267966214484347114404103294010060250752988312746462277781459029998029607816555224 112179790148480538978005316034466680046463101436985763996270007240755106932396998273078202118781070610741817438479500218849) 2659996905859338126918446182385457656019111335144863285682205604819957136479606547069362565401;
  PPock 15 670226906265728561606133045062571868338637423657183531885306867320456165265946593148371018658422771287384626147955975458528429197 110023225518986754259414983887796014023174349181958429344258788787697605193921524940457189795144960400934611621004836639455319171 311664243370486268864716843466159600795573604172353962632949527696001419497851920663465795619250226332704897115932265423990984891 [(168269685222720808467007974051700020069694652155478645994405010861132660398595497409617303178171605916112726157719250328273, 1%nat, 330440115508541193183281493064487617830772796030367892213445301678233169741748997109970789641896568918168864033565523864645686652)];
  PEc (ec_job 18 13407807929942597099574024998205846127479365820592393377723561443721764030073449232318290585817636498049628612556596899500625279906416653993875474742293109 10261672417233445340917794915360049011632214115605758831477322012943970471676272101663526117320778005398914514581315736857734402890738766383819718462171954 7685122937844747833956503981555044012606959141942159455620435808970460562780405722966237985266263495425555828143696823810604719539875118901863486119346761 654145981915632856112994321634747299244850821097308511172436724739719031829120737871395128238296830933827681243598916040194719724444527936617165832133471 5198055814397912442065140106718719616519029797269503836396882298492367710301805335813086839894282816175620637167085367119801812782623849602893979625926733 12861476114843794384281619461741125460335809715054171705788565045653198497725260853513496720149208385166666600831323832852013456567179960774945360823839952 670226906265728561606133045062571868338637423657183531885306867320456165265946593148371018658422771287384626147955975458528429197 525047902957194014123197921451337062711702238293731908957762038707161114875932739208302542411993491872333270418819376563367331578776704466122467973671556 8891773245115972179757085966341340704169746685078684420061488871688041181824741217643860239006035710151308793712699470542415137306351861049788420931713483 4469269309980865699858008332735282042493121940197464459241187147907254676691149744106096861939212166016542870852198966500208426635472217997958491580764370) 670226906265728561606133045062571868338637423657183531885306867320456165265946593148371018658422771287384626147955975458528429197].
Lemma prime_n_GOST2012_tc26_A : prime 13407807929942597099574024998205846127479365820592393377723561443721764030073449232318290585817636498049628612556596899500625279906416653993875474742293109.
Proof. apply (chain_prime chain_GOST2012_tc26_A); vm_cast_no_check (eq_refl true). Qed.
Definition job_GOST2012_tc26_A : ecjob := ec_job 18 13407807929942597099574024998205846127479365820592393377723561443721764030073546976801874298166903427690031858186486050853753882811946569946433649006083527 23329438703313586487296 13407807929942597099574024998205846127479365820592393377723561443721764030073546976801874298166903427690031858186486050853753882811946569946433649006083524 12190580024266230156189424758340094075514844064736231252208772337825397464478540423418981074322718899427039088997221609947354520590448683948135300824418144 3 6128567132159368375550676650534153371826708807906353132296049546866464545472607119134529221703336921516405107369028606191097747738367571924466694236795556 13407807929942597099574024998205846127479365820592393377723561443721764030073449232318290585817636498049628612556596899500625279906416653993875474742293109 6675941235884540855903942564849148368497592230478368228711099641844594969169063439700002434942039913548882109189891340769568954541338617987602943127052144 11395874289119774124525043400050999520406179539983415185079230414215693200505113151322716256979889411335012563103137515618558145421443293368649428612888153 4469269309980865699858008332735282042493121940197464459241187147907254676691182325600624766055634475896677286062162016951251294270648856648811216335361176.
Lemma order_GOST2012_tc26_A : job_ok job_GOST2012_tc26_A 13407807929942597099574024998205846127479365820592393377723561443721764030073449232318290585817636498049628612556596899500625279906416653993875474742293109.
Proof. apply job_check_ok; [exact prime_n_GOST2012_tc26_A|vm_cast_no_check (eq_refl true)]. Qed.

(** GOSTmsg05975sw *)
Definition chain_GOSTmsg05975sw : list pcert := [
  PPock 1 3 1 2 [(2, 1%nat, 1)];
  PPock 1 7 1 3 [(3, 1%nat, 1); (2, 1%nat, 3)];
  PPock 1 5 1 2 [(2, 2%nat, 2)];
  PPock 1 211 123 64 [(7, 1%nat, 36); (5, 1%nat, 2)];
  PPock 1 15193 8380 3493 [(211, 1%nat, 4068)];
  PPock 2 334247 310350 183340 [(15193, 1%nat, 285003)];
  PPock 2 6383449207 4949060509 5409749825 [(334247, 1%nat, 3114588497)];
  PPock 1 241 240 111 [(2, 4%nat, 120)];
  PPock 1 2411 1128 1024 [(241, 1%nat, 971)];
  PPock 1 163 136 64 [(3, 3%nat, 19)];
  PPock 2 49517119 15665213 12231252 [(2411, 1%nat, 25380209); (163, 1%nat, 37518160)];
  PPock 1 109 45 81 [(3, 3%nat, 51)];
  PPock 1 13 1 8 [(2, 2%nat, 6)];
  PPock 1 56681 24035 43017 [(109, 1%nat, 19212); (13, 1%nat, 17659)];
  PPock 2 1020259 425375 262144 [(56681, 1%nat, 110159)];
  PPock 1 73 64 52 [(3, 1%nat, 21); (2, 3%nat, 36)];
  PPock 1 439 274 64 [(73, 1%nat, 223)];
  PPock 1 4391 3267 1024 [(439, 1%nat, 2335)];
  PPock 2 131731 118425 2443 [(4391, 1%nat, 38462)];
  PPock 8 436507076468900140366425501171682883740734440658830508948366357059 230452325535433304000087596376699534723214579790718009100666189119 403626854838836171395975368780117861313962143761646220082978392672 [(6383449207, 1%nat, 312487651200682930234914106403136844149983843028977474729782283634); (49517119, 1%nat, 354135851853351584669319775186240889496102587827051225993976046510); (1020259, 1%nat, 85778997151356319667848262031152498093621491910682173673110197688); (131731, 1%nat, 185823196322098216765124824566683124854316586931425908501816153393); (73, 2%nat, 217916874874018553060623657779504872756989791138935689409113663885); (7, 1%nat, 25297003446594127655422577347332716799698385502916958041886459755)];
  PEc (ec_job 14 420426262271451487994927477411117644412503441373322668170267384818812032370540956528975568812959336884879308530937 277443411202960255440350252845289705358983547217445587315906295305082011614109385964568622295882353933765612347166 197628829873971958233692174043386100776395230700556207018109233940937095319041678710135865319496120740039760960662 98194416551304543452403943596463476704646180504090465833340933378040941236084320328485459314374619953626791827624 106514052013782825553825545628933366751720180681833097839908518459895366957740267760797677328743281732670540795420 352202035207518855646537417229489184351118734024167551901672255330558413021218254132416315086197942126400258870595 436507076468900140366425501171682883740734440658830508948366357059 190291978968919957198285485505153459844110859546050608948951367487450304747230135585868372881640723806654340712297 2578886809709199306819231429087181744929325427348172518962300410919439538564321868255279932151536106013357322268 280284174847634325329951651607411762941668960915548445446844923212541354913693971019317045875306224589919539020625) 436507076468900140366425501171682883740734440658830508948366357059;
  PEc (ec_job 18 3351951982485649274893506249551461531869841455148098344430890360930441007518362115868300084349221274418848205850841645514717116281909345935543464929272813 3275244842823806210779597733648470064027322416537985097511046725100783319178284737765774900832896600651910614088419698748730312310488231637056962623014154 3351951982485649274893506249551461531869841455148098344430890360930441007518362115868300084349221274418848205850841645514717116281909345935543464929272810 2094472657986826674134833256275905441861929325122843169212700873621151248870388463854593997842613752203391546817428059248102569346628472982596037153281095 2971532779291228846929396229231945423306273086949519592449709946201437123770053443079787615016154855418153404249099798433154736499606943727663138754472228 1919424971981415000483775782981454350728063158558595141849295676383440630003382278922775408918081717920424964811223472152146357319142869272055672965434845 420426262271451487994927477411117644412503441373322668170267384818812032370540956528975568812959336884879308530937 959364954149265865633476615256474986319406698414615296167929075575448405017764195235143459547640127964126049472653024744556090080866041929797111089768103 517469543539604658816437393939027673304929551060612261988421016529105607200019833866406744674755183969364081322545593205647401369847199967342305166198674 1117317327495216424964502083183820510623280485049366114810296786976813669172787371956100028116407091472949401950280548504905705427303115311847821643090938) 420426262271451487994927477411117644412503441373322668170267384818812032370540956528975568812959336884879308530937].
Lemma prime_n_GOSTmsg05975sw : prime 3351951982485649274893506249551461531869841455148098344430890360930441007518362115868300084349221274418848205850841645514717116281909345935543464929272813.
Proof. apply (chain_prime chain_GOSTmsg05975sw); vm_cast_no_check (eq_refl true). Qed.
Definition job_GOSTmsg05975sw : ecjob := ec_job 18 13407807929942597099574024998205846127479365820592393377723561443721764030073546976801874298166903427690031858186486050853753882811946569946433649006083527 23329438703313586487296 11552207741726624081384854431754270453419990958158536547453630472753284279856029013033421730195977772912484970560977054897563749457966985165428182284278739 9467654314974239364849779893497935997616546680893642377235981868741051215651032446828994750528267630604306101610711521055955290148577159125187794668181473 11883046340949417535959253611031637438486121989357748247963585015455167053565085942161130870937622596747831459979590245849590330315393322885186213222089032 12873887912291418762163219174899249027788909354964279561044704584079894283286935688639587101137346765264237830933785897290140286858111689735138773336704015 3351951982485649274893506249551461531869841455148098344430890360930441007518362115868300084349221274418848205850841645514717116281909345935543464929272813 5976704919993442391224271884610363116920289577071122937960695465884816804103382542821708928846691014200528629113952572338220746850323542898111539866748871 8387402921416200334862154657162096496317296050468437917176389853790716057926060216350715772275627423982888721186519156226025925408692974762933547408991364 4469269309980865699858008332735282042493121940197464459241187147907254676691182325600624766055634475896677286062162016951251294270648856648811216335361176.
Lemma order_GOSTmsg05975sw : job_ok job_GOSTmsg05975sw 3351951982485649274893506249551461531869841455148098344430890360930441007518362115868300084349221274418848205850841645514717116281909345935543464929272813.
Proof. apply job_check_ok; [exact prime_n_GOSTmsg05975sw|vm_cast_no_check (eq_refl true)]. Qed.

(** SECP_521r1 *)
Definition chain_SECP_521r1 : list pcert := [
  PPock 1 3 1 2 [(2, 1%nat, 1)];
  PPock 1 2017 1347 1613 [(2, 5%nat, 1008); (3, 1%nat, 1246)];
  PPock 1 80681 45851 76729 [(2017, 1%nat, 38922)];
  PPock 2 161363 112973 4 [(80681, 1%nat, 53788)];
  PPock 1 37 10 16 [(3, 2%nat, 3)];
  PPock 1 17 16 9 [(2, 3%nat, 8)];
  PPock 1 1259 537 4 [(37, 1%nat, 481); (17, 1%nat, 4)];
  PPock 2 1089728875189 1010138863077 754612694385 [(161363, 1%nat, 93345771010); (1259, 1%nat, 1020407879120)];
  PPock 1 163 136 64 [(3, 3%nat, 19)];
  PPock 1 5 1 2 [(2, 2%nat, 2)];
  PPock 1 61 1 3 [(5, 1%nat, 23); (2, 1%nat, 30)];
  PPock 1 13 1 8 [(2, 2%nat, 6)];
  PPock 2 108577561 38358460 94331866 [(163, 1%nat, 90189540); (61, 1%nat, 50720398); (13, 1%nat, 40954755)];
  PPock 2 6297498539 2956296224 1785258730 [(108577561, 1%nat, 1590105830)];
  PPock 5 113803293421863751633694285021567047 112946848544213284189828591789853608 85418849343468135164881785275144712 [(1089728875189, 1%nat, 93788615010498632466284779003848724); (6297498539, 1%nat, 20064947122527364738067537863236750)];
  PPock 7 18366696061247131666665332558463390215362576470766091 4651620494735572018132057526369298223967316484480106 10978170992460765266481493718716347138917726625736451 [(113803293421863751633694285021567047, 1%nat, 12764807127524808667760571113951981436957601408444465)];
  PPock 10 2100948188726203160139288576235297642349062058038788821786654414274898810131290839 1074893060846182569976383556632472175345398324701038899109230938835375881284736654 820859071321102646799352533497723589779675985715038068253444787922382154158409683 [(18366696061247131666665332558463390215362576470766091, 1%nat, 1315972670605021341767110063282273452292510111213560769081840761153363957170324702)];
  PEc (ec_job 14 310762444885798318111814577648383553831067935863142939493208987681391923872603936986116119012891509672951105048809521 150779275997061358017751600672172929506984332157358751891521849840773123681581849290611619940139687867723015237371173 310762444885798318111814577648383553831067935863142939493208987681391923872603936986116119012891509672951105048809518 134376693843434666328540047276592334270507752401561801193172885077127220857161604106446065938111526157708789014620817 264197981082137133619412401970608604678348164848950168434536725910389976756971847312962224511390652919341911513604758 80430170461221966557050398941605258343350188799160230081039358511069843527943348315905376540089163691406920524444367 2100948188726203160139288576235297642349062058038788821786654414274898810131290839 258139578245222638445363216570276999027790364427332431338849587523743967538597572168978368312080001058173254272569889 136566509104303559194545530479495602865018644534538250438123045514425928210549800818578297198974637051739325533446291 207174963257198878741209718432255702554045290575428626328805991787594615915069291324077412675261006448634070032539681) 2100948188726203160139288576235297642349062058038788821786654414274898810131290839;
  PEc (ec_job 18 6864797660130609714981900799081393217269435300143305409394463459185543183397655394245057746333217197532963996371363321113864768612440380340372808892707005449 5625955846622138744152724022208189411977190945889654014873226820494786889999050066412961810350446292119936968699922395369827933125836435735062477764526395384 6864797660130609714981900799081393217269435300143305409394463459185543183397655394245057746333217197532963996371363321113864768612440380340372808892707005446 3782830934071953318676133785436076859620812065679052257533088241594944951108409937647898731317962902538404029586991647954689865266794617690405753939218843632 5742355995233581569546952597646386219374820796570909705955045512989428168244781597428699778218133758767122101403486259729950532357643239464761019715487408324 4783341685356373983367175729251758448379996669622609428294696785031352642710788139067653805042290476008696975571204091962092719877734253197463005738046320011 310762444885798318111814577648383553831067935863142939493208987681391923872603936986116119012891509672951105048809521 6691345923515992412785817509672264123351748572724153646992969212129946071396944147000456494190939715771986594669173542757536008875718687821240945438188298948 2341634234868987096904850685683211144317569727373739411352816921448997846698883115658283593941514758103220085225645265017554030022075070695584883959730219848 2288265886710203238327300266360464405756478433381101803131487819728514394465885131415019248777739065844321332123787773704621589537480126780124269630902335150) 310762444885798318111814577648383553831067935863142939493208987681391923872603936986116119012891509672951105048809521].
Lemma prime_n_SECP_521r1 : prime 6864797660130609714981900799081393217269435300143305409394463459185543183397655394245057746333217197532963996371363321113864768612440380340372808892707005449.
Proof. apply (chain_prime chain_SECP_521r1); vm_cast_no_check (eq_refl true). Qed.
Definition job_SECP_521r1 : ecjob := ec_job 18 6864797660130609714981900799081393217269435300143305409394463459185543183397656052122559640661454554977296311391480858037121987999716643812574028291115057151 274877906944 6864797660130609714981900799081393217269435300143305409394463459185543183397656052122559640661454554977296311391480858037121987999716643812574028291115057148 1093849038073734274511112390766805569936207598951683748994586394495953116150735016013708737573759623248592132296706313309438452531591012912142327488478985984 2661740802050217063228768716723360960729859168756973147706671368418802944996427808491545080627771902352094241225065558662157113545570916814161637315895999846 3757180025770020463545507224491183603594455134769762486694567779615544477440556316691234405012945539562144444537289428522585666729196580810124344277578376784 6864797660130609714981900799081393217269435300143305409394463459185543183397655394245057746333217197532963996371363321113864768612440380340372808892707005449 5462068314306223049591955946825636512545855767394358556277700379283139616997862103251019325048851149957178630765281430059282105212977261507080546155520611739 5181059221410025623239791785508109934427518278345800105931984091084315817654954493078208955328684757879695026597884063930904170674741010288208961226852912112 4576531773420406476654600532720928811512956866762203606262975639457028788931770701415039760440969703318197540927653905358081325333144429208382685527410038101.
Lemma order_SECP_521r1 : job_ok job_SECP_521r1 6864797660130609714981900799081393217269435300143305409394463459185543183397655394245057746333217197532963996371363321113864768612440380340372808892707005449.
Proof. apply job_check_ok; [exact prime_n_SECP_521r1|vm_cast_no_check (eq_refl true)]. Qed.
