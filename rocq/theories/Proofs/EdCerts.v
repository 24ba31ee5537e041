(** Orders of the generators of the built-in Montgomery and Edwards curves, checked by evaluation.  Generated by tools/gen_ed_orders.py. *)
From Coq Require Import ZArith List Znumtheory.
From Verif Require Import Proofs.EcCheck Proofs.PrimeChain Proofs.CurveOrder5 Proofs.CurveOrder6.
Import ListNotations.
Local Open Scope Z_scope.

(** GOSTmsg05975te *)
Definition chain_GOSTmsg05975te : list pcert := [
  PPock 1 17 16 9 [(2, 3%nat, 8)];
  PPock 1 3 1 2 [(2, 1%nat, 1)];
  PPock 1 7 1 3 [(3, 1%nat, 1); (2, 1%nat, 3)];
  PPock 1 1429 792 1282 [(17, 1%nat, 725); (7, 1%nat, 494)];
  PPock 2 377257 112811 249466 [(1429, 1%nat, 60297)];
  PPock 1 5 1 2 [(2, 2%nat, 2)];
  PPock 1 5 1 2 [(2, 2%nat, 2)];
  PPock 1 11 1 4 [(5, 1%nat, 4)];
  PPock 1 9901 240 2076 [(5, 2%nat, 4084); (11, 1%nat, 4839)];
  PPock 2 179290634737 81086143196 167970808303 [(377257, 1%nat, 144722109014); (9901, 1%nat, 57871016685)];
  PPock 2 96816942757981 6053790588768 42443039987774 [(179290634737, 1%nat, 864934525383)];
  PPock 3 580901656547887 493623676751739 64 [(96816942757981, 1%nat, 212075207946054)];
  PPock 3 8208140407021643311 7147726138783487730 5009682456443660313 [(580901656547887, 1%nat, 4719524615558912337)];
  PPock 3 426823301165125452173 397735639815070304637 4503599627370496 [(8208140407021643311, 1%nat, 67663720693435587947)];
  PPock 1 13 1 8 [(2, 2%nat, 6)];
  PPock 1 3 1 2 [(2, 1%nat, 1)];
  PPock 1 79 18 4 [(13, 1%nat, 74); (3, 1%nat, 18)];
  PPock 1 3319 3116 2158 [(79, 1%nat, 2842)];
  PPock 1 17 16 9 [(2, 3%nat, 8)];
  PPock 1 137 38 119 [(17, 1%nat, 36)];
  PPock 2 4984454287 2291485473 1484434697 [(3319, 1%nat, 3019802064); (137, 1%nat, 2995223690)];
  PPock 3 1889197894950167 516430347802959 1783828284518986 [(4984454287, 1%nat, 1488727089345970)];
  PPock 6 42563390724756941025919865365266206323321807747 14496307794451005135148011167617108661884780284 18661668498725354603067198331861291438013381103 [(426823301165125452173, 1%nat, 20015212263542958647761115986976421250551350695); (1889197894950167, 1%nat, 40232467880193998120615493751929033924047764553)];
  PEc (ec_job 10 130870307852312378666796742679710899130411951417380276725606701107877015605363567545327 93457397930349968779179889485764634979083090747681834457760752844303534590874432413419 16362612798559783309215846286161316217956179888662177280598371068502072133437954050505 10908408532373188872810564190774210811970786592441451520398914045668048088958636033670 71132584978940995938287676105304311803929806564836990953857068099279758799502705590769 117786130376260945109154846213835364326859375927572877375277662764556918069672827075863 42563390724756941025919865365266206323321807747 56354931764628187846704874130752527780163026288586269090143414995345679517440125143788 116295021325313138754621846709034881518686248429733693315296546652411121050131486874809 43623435950770792888932247559903633043470650472460092241868900369292338535121189181776) 42563390724756941025919865365266206323321807747;
  PPock 13 55835178430152164512923277106257742912527681679254322377856436070815301697082846622675239351946815969571589 54321190221811620445014044616517604986933854745404144504532163225141874462879552305075710986306418653778392 30633438348507873785868662514159726677993899385562593545295826497622727374614940467447186509784636496329516 [(130870307852312378666796742679710899130411951417380276725606701107877015605363567545327, 1%nat, 25520664043450767208095386060332874816061329194881763824935664198784749443826412110344310518289548916268127)];
  PEc (ec_job 18 3351951982485649274893506249551461531869841455148098344430890360930441007518411372532637064734230439426167723242401379912159825124063939037673359573768951 3275244842823806210779597733648470064027322416537985097494908353609686995379683029029132064682820873323782901127742994025810416202045281034382488105695870 1952902766055570217100202019296533169820156227358621178710444022251597327003687765788945607580830142342420974821850087676882211015491776039973017159940874 1301935177370380144733468012864355446546770818239080785806962681501064884669125177192630405053886761561613983214566725117921474010327850693315344773293916 1573816964017976717684559509240191027702401102872842259954490973557173990288393945940303163627625768707042412289886696355907516402743497025748607862780576 911115217114802789324263768521430432056924327085737388603042599271661416936052266463857230127420914940405645384137399405947807363137736539212014707099773 55835178430152164512923277106257742912527681679254322377856436070815301697082846622675239351946815969571589 1876354521536274780317573582893854186362276202477196421730035945327835500652108197709755463964608461171624351877380413381375548176323444203022374383138160 1469144720894645488987411845945417602114758693536678772580477405330339953996808605185954992823110459323441077881419504159710836365925501841572490520105221 2234634654990432849929004166367641021246560970098732229620593573953627338345607581688424709822820292950778482161600919941439883416042626025115573049179301) 55835178430152164512923277106257742912527681679254322377856436070815301697082846622675239351946815969571589].
Lemma prime_n_GOSTmsg05975te : prime 3351951982485649274893506249551461531869841455148098344430890360930441007518411372532637064734230439426167723242401379912159825124063939037673359573768951.
Proof. apply (chain_prime chain_GOSTmsg05975te); vm_cast_no_check (eq_refl true). Qed.
Definition map_GOSTmsg05975te : Z * Z * Z * Z := (2713898212749584529352789673834114355208827312579112730486772431141735535427873443097889367816713444263647832498755511410527123175324007042551379128610248, 2713898212749584529352789673834114355208827312579112730486772431141735535427873443097889367816713444263647832498755511410527123175324007042551379128610250, 4732589725998325491957578340743101474197967913305725361297675033138146459232816631150289506075792835751407007022912310630036454661923743250386437600995700, 6221947398085505682697209907021659471890716359891381799060342587939569927767844024753626882856167792070647881806377817636670417619860905712325312758314662).
Definition job_GOSTmsg05975te : ecjob := ec_job 18 13407807929942597099574024998205846127479365820592393377723561443721764030073546976801874298166903427690031858186486050853753882811946569946433649006083527 23329438703313586487296 11552207741726624081384854431754270453419990958158536547453630472753284279856029013033421730195977772912484970560977054897563749457966985165428182284278739 9467654314974239364849779893497935997616546680893642377235981868741051215651032446828994750528267630604306101610711521055955290148577159125187794668181473 11883046340949417535959253611031637438486121989357748247963585015455167053565085942161130870937622596747831459979590245849590330315393322885186213222089032 12873887912291418762163219174899249027788909354964279561044704584079894283286935688639587101137346765264237830933785897290140286858111689735138773336704015 3351951982485649274893506249551461531869841455148098344430890360930441007518362115868300084349221274418848205850841645514717116281909345935543464929272813 5976704919993442391224271884610363116920289577071122937960695465884816804103382542821708928846691014200528629113952572338220746850323542898111539866748871 8387402921416200334862154657162096496317296050468437917176389853790716057926060216350715772275627423982888721186519156226025925408692974762933547408991364 4469269309980865699858008332735282042493121940197464459241187147907254676691182325600624766055634475896677286062162016951251294270648856648811216335361176.
Lemma order_GOSTmsg05975te : job_ok job_GOSTmsg05975te 3351951982485649274893506249551461531869841455148098344430890360930441007518362115868300084349221274418848205850841645514717116281909345935543464929272813.
Proof. apply job_check_ok; [exact prime_n_GOSTmsg05975sw|vm_cast_no_check (eq_refl true)]. Qed.

(** Curve25519 *)
Definition chain_Curve25519 : list pcert := [
  PPock 1 5 1 2 [(2, 2%nat, 2)];
  PPock 1 61 1 3 [(5, 1%nat, 23); (2, 1%nat, 30)];
  PPock 1 367 225 64 [(61, 1%nat, 134)];
  PPock 1 3 1 2 [(2, 1%nat, 1)];
  PPock 1 7 1 3 [(3, 1%nat, 1); (2, 1%nat, 3)];
  PPock 1 29 16 4 [(7, 1%nat, 2); (2, 1%nat, 14)];
  PPock 1 349 210 64 [(29, 1%nat, 15); (2, 1%nat, 174)];
  PPock 2 8453479 5277284 5301467 [(367, 1%nat, 4404103); (349, 1%nat, 6401203)];
  PPock 2 33813917 5941905 16 [(8453479, 1%nat, 15779828)];
  PPock 2 22968306005753 10865856504401 18242691233813 [(33813917, 1%nat, 14259655857013)];
  PPock 3 21402602521952829497 17114993046979918957 17594755374059123640 [(22968306005753, 1%nat, 2067787842410864528)];
  PPock 3 47256946368471847529377 28625363319241998408488 40839279622214347259135 [(21402602521952829497, 1%nat, 20358805644776268799134)];
  PEc (ec_job 6 2313141234221332690608458520623803155094519 859096264065449284966394168487349145351508 2313141234221332690608458520623803155094516 1639804786418089360778254355180701549842247 1137427572469373817181804422534893692742189 1813928634669674404665659740280800349443782 47256946368471847529377 1236008791677500195593813964188907407438417 1196171911543233422481545501348850124551739 1542094156147555127072305680415868770063013) 47256946368471847529377;
  PEc (ec_job 9 7237005577332262213973186563042994240857116359379907606001950938285454250989 3510791651170009376148948020954557980440202144244105470269275947098800290049 1906928505123752099999734207828379292543298699247661038333708238646467082574 6095956054970676209315280513914249022266943372418379096223772784621280889042 5130494695926655139422312149494582405893487634845308342862573661912052852538 1820904730508858657851392896907512117861433577989277967483728685081889919624 2313141234221332690608458520623803155094519 2497286827202939143996069218482541494194104891279662785862807664435929204613 4590516994417385668547201807499483312073557390649823088863042286870922620954 4824670384888174809315457708695329493904744239586605070667967292190302833993) 2313141234221332690608458520623803155094519].
Lemma prime_n_Curve25519 : prime 7237005577332262213973186563042994240857116359379907606001950938285454250989.
Proof. apply (chain_prime chain_Curve25519); vm_cast_no_check (eq_refl true). Qed.
Definition job_Curve25519 : ecjob := ec_job 9 57896044618658097711785492504343953926634992332820282019728792003956564819949 387620798464 19298681539552699237261830834781317975544997444273427339909597334573241639236 55751746669818908907645289078257140818241103727901012315294400837956729358436 19298681539552699237261830834781317975544997444273427339909597334652188435546 14781619447589544791020593568409986887264606134616475288964881837755586237401 7237005577332262213973186563042994240857116359379907606001950938285454250989 23989738256004134523099868998194443329737735164088390328156866007730723165882 33091711653400878334459640397772451772377879251964723844336963003773021730565 38597363079105398474523661669562635951089994888546854679819194669304376546633.
Lemma order_Curve25519 : job_ok job_Curve25519 7237005577332262213973186563042994240857116359379907606001950938285454250989.
Proof. apply job_check_ok; [exact prime_n_Curve25519|vm_cast_no_check (eq_refl true)]. Qed.

(** E382 *)
Definition chain_E382 : list pcert := [
  PPock 1 17 16 9 [(2, 3%nat, 8)];
  PPock 1 137 38 119 [(17, 1%nat, 36)];
  PPock 1 823 308 64 [(137, 1%nat, 614)];
  PPock 1 3 1 2 [(2, 1%nat, 1)];
  PPock 1 5 1 2 [(2, 2%nat, 2)];
  PPock 1 181 48 16 [(3, 2%nat, 104); (5, 1%nat, 103)];
  PPock 2 25919563 13064496 17188106 [(823, 1%nat, 8963911); (181, 1%nat, 8947536)];
  PPock 2 777586891 776064440 296154933 [(25919563, 1%nat, 624789316)];
  PPock 2 175734637367 18039020084 126345653351 [(777586891, 1%nat, 68356273241)];
  PPock 3 17485786413519689332051 1870368387280944711861 2840783343123970594890 [(175734637367, 1%nat, 3335629165700154584097)];
  PPock 1 5 1 2 [(2, 2%nat, 2)];
  PPock 1 61 1 3 [(5, 1%nat, 23); (2, 1%nat, 30)];
  PPock 1 733 543 431 [(61, 1%nat, 329)];
  PPock 1 3 1 2 [(2, 1%nat, 1)];
  PPock 1 7 1 3 [(3, 1%nat, 1); (2, 1%nat, 3)];
  PPock 1 3 1 2 [(2, 1%nat, 1)];
  PPock 1 43 16 9 [(7, 1%nat, 14); (3, 1%nat, 16)];
  PPock 1 173 57 16 [(43, 1%nat, 150)];
  PPock 1 347 249 4 [(173, 1%nat, 116)];
  PPock 2 3052213 736340 4096 [(733, 1%nat, 2681241); (347, 1%nat, 2379451)];
  PPock 1 5 1 2 [(2, 2%nat, 2)];
  PPock 1 11 1 4 [(5, 1%nat, 4)];
  PPock 1 23 9 4 [(11, 1%nat, 8)];
  PPock 1 47 28 4 [(23, 1%nat, 16)];
  PPock 1 17 16 9 [(2, 3%nat, 8)];
  PPock 1 55931 23171 12360 [(47, 1%nat, 790); (17, 1%nat, 30397)];
  PPock 2 123255020868767 67743297545659 58130448235899 [(3052213, 1%nat, 112044882693543); (55931, 1%nat, 49017957503087)];
  PPock 6 304659481113489190920380287783161757970310880951 246857875905819658673225364896332972063893117591 2659125798188182908960749816351670783167495751 [(17485786413519689332051, 1%nat, 218233100775384209088342270499322631684481646363); (123255020868767, 1%nat, 177954435607028036418466894993470146281022024457)];
  PPock 8 3303337631544357230763663556228649543876233496649242673377358371 1571223390933619948633525055548497888697865391927624876537492265 2604551060077656760931483939212910516356280338048118251627478735 [(304659481113489190920380287783161757970310880951, 1%nat, 1009400811329529957145047583816871861676735893994905784576963618)];
  PEc (ec_job 14 2462625387274654950767440006258975862817483704404090416745738034557663054564649171262659326683244604346084081047321 1536134014451924336279079393626225570149498824735562513893822946316590268979890559732206132589056008503833547567482 1586233320982449842317714604472843569959924552148059554356191175151698860616884803384965487440367062349302417841613 709841254690244733867989202686711277102365399892028691966644315745734666669120435507271648197489520352520754635905 1308398949683188067517857169651737188297001972189302154465457417505369035589273949192364530840716520707064812954845 2023514181880744039650332296573655180955566347889714012694733379967608895204240866485439846261068056503426369508270 3303337631544357230763663556228649543876233496649242673377358371 2438356360339181574920474001375146597465767170811091852642002617796412741417622989733946653847977133052145805953739 1210667351596577926991260062779939513128515129717133586377858953608786169388852048373511827425607166583547175057595 820875129091551650255813335419658620939161234801363472248579344852554351521549723754219775561081534782028027015774) 3303337631544357230763663556228649543876233496649242673377358371].
Lemma prime_n_E382 : prime 2462625387274654950767440006258975862817483704404090416745738034557663054564649171262659326683244604346084081047321.
Proof. apply (chain_prime chain_E382); vm_cast_no_check (eq_refl true). Qed.
Definition map_E382 : Z * Z * Z * Z := (3810139726388394848815058171010095790370025787606453533640647180945833789917955679300166241746250076127959335885176, 3810139726388394848815058171010095790370025787606453533640647180945833789917955679300166241746250076127959335885178, 8619188855461292327686040021906415519861192965414316458613689182178751637515014821246870743256075296426449872879523, 1555282993855897628565814426088180504875819328905493544408448467552567688330906280803272856386980744619227771701931).
Definition job_E382 : ecjob := ec_job 14 9850501549098619803069760025035903451269934817616361666987073351061430442874302652853566563721228910201656997576599 833025447578205415695974400 1436531475910215387947673336984402586643532160902386076435614863696458606252502470207811790542679216071074884601609 9451465028012448861973184098095791621646731439587921090199402555590191941137496411129174399681595794626710644506020 1128703302500883519101743336202030603791346697851874774342268821475788904912680512306137835426390812627273197608861 9370952024136449902086640201116180048217719135322308530604515932713931896094813845876720601386274393893689134442755 2462625387274654950767440006258975862817483704404090416745738034557663054564649171262659326683244604346084081047321 1871856934752359858672201495205000151832629583765329284094515979899163051905021394175504280812320494974825280286245 2927087749834006888158302642885537491362493919167799386043693241043692232951900614975438840693368634588456621861850 6567001032732413202046506683357268967513289878410907777991382234040953628582868435235711042480819273467771331717733.
Lemma order_E382 : job_ok job_E382 2462625387274654950767440006258975862817483704404090416745738034557663054564649171262659326683244604346084081047321.
Proof. apply job_check_ok; [exact prime_n_E382|vm_cast_no_check (eq_refl true)]. Qed.

(** M383 *)
Definition chain_M383 : list pcert := [
  PPock 1 929 103 701 [(2, 5%nat, 464)];
  PPock 2 189517 182341 167171 [(929, 1%nat, 108671)];
  PPock 2 198992851 20854218 151379785 [(189517, 1%nat, 97104492)];
  PPock 1 5 1 2 [(2, 2%nat, 2)];
  PPock 1 11 1 4 [(5, 1%nat, 4)];
  PPock 1 3 1 2 [(2, 1%nat, 1)];
  PPock 1 199 182 64 [(11, 1%nat, 136); (3, 1%nat, 163)];
  PPock 1 2389 581 1707 [(199, 1%nat, 794)];
  PPock 2 344017 70582 334618 [(2389, 1%nat, 56836)];
  PPock 3 245328392616598763231 147608179439901254814 1178826620746587211 [(198992851, 1%nat, 11619151861787309440); (344017, 1%nat, 139298988370026418547)];
  PPock 4 34955567022045560680464857345909 31745530070957909809616268177299 31440277156181801704453755526402 [(245328392616598763231, 1%nat, 4553342327600344109617994205360)];
  PEc (ec_job 8 2327857507173547149769696083523611455942141054844283865629109 1708398440545696229378461498642536147892538547873096054147700 1570412925135276769545001133156006627977859470023111133061048 1317931397789186642803436149700138351989765608416053555538361 2324139279315500769288725345517979551271142062848803676278212 6780715918005461789003726656487605404156495377540799236233 34955567022045560680464857345909 2324125733136243879408115275186108682738093840428997469443253 1694104627462582238823807160730294092988763862623593039517723 775952502391182383256565361174537151980713684948094621876370) 34955567022045560680464857345909;
  PEc (ec_job 13 23978163906116309806674273528410869974800147232588444606571758029980837570993229680578504611504832152780419 4692869890667530828450302824642540748680129720197404076922904239106782227544641787617600358526864238556078 23978163906116309806674273528410869974800147232588444606571758029980837570993229680578504611504832152780416 16406307135613968650416576755024720408468761296046421614958821129352518882695743573268388506006236772686951 6667920030339189092991554936801006459875028245078967715325224056396040409640711852542659788331354282955385 12440557716336086452361820530630137402058454196350757972349679837483237361442758419524789546880125055460376 2327857507173547149769696083523611455942141054844283865629109 9180081278459989055648761603010765734946579471376425760853499006620268116722813031466649117023494615575078 1642105453025639263859376189703482668369665897926870258708973683702440873234736477331031010416180355116943 15985442604077539871116182352273913316533431488392296404381172019987225047328819787052336407669888101853613) 2327857507173547149769696083523611455942141054844283865629109;
  PPock 14 2462625387274654950767440006258975862817483704404090416746934574041288984234680883008327183083615266784870011007447 467499379996232596978082645460701155480332108701669044427783923591080175355549585233647158202816181131988070975198 1466120440955325235438239311629461278168789958844932814031836395273795379502000905319827955521539941642108345864115 [(23978163906116309806674273528410869974800147232588444606571758029980837570993229680578504611504832152780419, 1%nat, 550758312509129934696317544759377379653624975809595272065634829377039457003086001373159203335400991701026978282775)]].
Lemma prime_n_M383 : prime 2462625387274654950767440006258975862817483704404090416746934574041288984234680883008327183083615266784870011007447.
Proof. apply (chain_prime chain_M383); vm_cast_no_check (eq_refl true). Qed.
Definition job_M383 : ecjob := ec_job 14 19701003098197239606139520050071806902539869635232723333974146702122860885748605305707133127442457820403313995153221 660545734157874493910941696 6567001032732413202046506683357268967513289878410907777991382234040953628582868435235711042480819273466349716876908 729666781414712578005167409261918774168143319823434197554598026004550403175874270581745671386758349462616491048773 13134002065464826404093013366714537935026579756821815555982764468081907257165736870471422084961638546935542664123876 4737623401891753997660546300375902576839617167257703725630389791524463565757299203154901655432096558642117242906494 2462625387274654950767440006258975862817483704404090416746934574041288984234680883008327183083615266784870011007447 8336814929842665531671646598909704345047005680905487723705660944503852483760787883063968044293887463443774548572544 12084381145531922285701852961662196932385876437723909051951636980861376837259721473401640067736651591157383635714826 13134002065464826404093013366714537935026579756821815555982764468081907257165736870471422084961638546935542663435481.
Lemma order_M383 : job_ok job_M383 2462625387274654950767440006258975862817483704404090416746934574041288984234680883008327183083615266784870011007447.
Proof. apply job_check_ok; [exact prime_n_M383|vm_cast_no_check (eq_refl true)]. Qed.

(** Curve3617 *)
Definition chain_Curve3617 : list pcert := [
  PPock 1 3 1 2 [(2, 1%nat, 1)];
  PPock 1 7 1 3 [(3, 1%nat, 1); (2, 1%nat, 3)];
  PPock 1 3 1 2 [(2, 1%nat, 1)];
  PPock 1 43 16 9 [(7, 1%nat, 14); (3, 1%nat, 16)];
  PPock 1 1033 479 372 [(43, 1%nat, 980); (2, 1%nat, 516)];
  PPock 1 4133 3650 16 [(1033, 1%nat, 3582)];
  PPock 1 17 16 9 [(2, 3%nat, 8)];
  PPock 1 103 100 64 [(17, 1%nat, 18)];
  PPock 1 619 238 64 [(103, 1%nat, 226)];
  PPock 1 5 1 2 [(2, 2%nat, 2)];
  PPock 1 3 1 2 [(2, 1%nat, 1)];
  PPock 1 31 1 9 [(5, 1%nat, 29); (3, 1%nat, 22)];
  PPock 1 5 1 2 [(2, 2%nat, 2)];
  PPock 1 311 13 4 [(31, 1%nat, 273); (5, 1%nat, 61)];
  PPock 2 13904599344773 10292575281488 6445876000402 [(4133, 1%nat, 9199899668467); (619, 1%nat, 5338117831129); (311, 1%nat, 11689704452470)];
  PPock 3 131342845410725759 67751617245428112 48925684169174188 [(13904599344773, 1%nat, 1632403882809336)];
  PPock 5 4868010057124911294296551654477037 1072413248159708248823044669122043 708004873331607143739514225224760 [(131342845410725759, 1%nat, 2864366210929895681873949011946717)];
  PPock 6 592299861982871449195634528262215319398393153 222509036135933031331372899096481888680901676 580710220979877823123741188012495558481016533 [(4868010057124911294296551654477037, 1%nat, 453212339599639552652966493173062806921142108)];
  PPock 7 3376384040438327312767543585515740988479041826522993 2481276887061652545790630531079933970350750921387178 325033923240904834364088111477035952828626849903839 [(592299861982871449195634528262215319398393153, 1%nat, 1655108222118585084429848496419637768180570536721849)];
  PPock 9 2394768781123004469808382870696186422325158931040989687224220336205960556679 1982625115887822222559176695048447883170619203041025967269808703466750358782 1256860618731943942560218756822254479483671425189879317650293553896118971308 [(3376384040438327312767543585515740988479041826522993, 1%nat, 843733241773313172426542565187387319918868400450010263941260839150939963520)];
  PPock 10 181015782627525661863876044430183339290714113279526328477904366773136146558252253 53607690761956338338605038990064974074914283134514366824344617014988797745450885 80435180227150204529038941264998991201595593407904959693090918440381940598551668 [(2394768781123004469808382870696186422325158931040989687224220336205960556679, 1%nat, 30994955636206314223777993711992249674948308236683588466360395590591354980361504)];
  PPock 13 7005507114193524029414407471112866694107408372181827430432047949693881095742546770048184168812214569007093 2040181728694341227783768360271339860427347283548330621031383041399392252897901098328116409968385769784255 2494535767614101733108919712137459934061037193498288288685274195532168881112853609977655222815110319031984 [(181015782627525661863876044430183339290714113279526328477904366773136146558252253, 1%nat, 518060414905332703987130930634580507364043799395542411097983335412131324356245790425018253523347953292520)];
  PPock 15 5288447750321988791615322464262168318627237463714249754277190328831105466135348245791335989419337099796002495788978276839289 3810729447928341226103903671239200343625338788798186444448256250196533167652155310470668362291073220336432510651773240398373 661563047981040585557407863195166961183607641784545938928010334314512434124566303658480370479028636593741435630344833767233 [(7005507114193524029414407471112866694107408372181827430432047949693881095742546770048184168812214569007093, 1%nat, 5211483174855046129801522737876397850093939475525233568229828182535655425388954208273327453581840875921046089638966788403885)]].
Lemma prime_n_Curve3617 : prime 5288447750321988791615322464262168318627237463714249754277190328831105466135348245791335989419337099796002495788978276839289.
Proof. apply (chain_prime chain_Curve3617); vm_cast_no_check (eq_refl true). Qed.
Definition map_Curve3617 : Z * Z * Z * Z := (16426948321796620051831665353593106901222657962510634192489325815314437714969577513956914185086022299575540914745713186888052, 16426948321796620051831665353593106901222657962510634192489325815314437714969577513956914185086022299575540914745713186888054, 39743486123631915767290908216273264939986511848519210274567976055285487570086112427793193742799852276897604989625646753807374, 839933412164472433702663125412881421097707462819558268773516747868629183550784604331227615346870906026576625124321601338194).
Definition job_Curve3617 : ecjob := ec_job 15 42307582002575910332922579714097346549017899709713998034217522897561970639123926132812109468141778230245837569601494931472367 1364763913549327466758144 42307582002575910332922579714097346549017899709713998034217522897561970639123926132812109468141778230245837569601494931198756 42307582002575910332922579714097346549017899709713998034217522897561970639123926132812109468141778230245837569601494877203573 33333246426271929353211729471713060917408042195532240875444108949594279897491578165245904429445037393527023539686026309646457 2236671449683305925398969480507433209994648385971289644656272082874689574321388075188206152980709096399807140440181156775230 5288447750321988791615322464262168318627237463714249754277190328831105466135348245791335989419337099796002495788978276839289 29525371868432044335824004551292502845298907695994845875193378456295619441383945730325305301142653142689125050316335594755769 23276482781535917226692339610624487193199813341720242442644925779029950245144829065959640288300650126546639344177527870070599 14102527334191970110974193238032448849672633236571332678072507632520656879707975377604036489380592743415279189867164977157456.
Lemma order_Curve3617 : job_ok job_Curve3617 5288447750321988791615322464262168318627237463714249754277190328831105466135348245791335989419337099796002495788978276839289.
Proof. apply job_check_ok; [exact prime_n_Curve3617|vm_cast_no_check (eq_refl true)]. Qed.

(** M511 *)
Definition chain_M511 : list pcert := [
  PPock 1 5 1 2 [(2, 2%nat, 2)];
  PPock 1 11 1 4 [(5, 1%nat, 4)];
  PPock 1 3 1 2 [(2, 1%nat, 1)];
  PPock 1 67 22 4 [(11, 1%nat, 50); (3, 1%nat, 54)];
  PPock 1 2011 850 550 [(67, 1%nat, 337)];
  PPock 1 5 1 2 [(2, 2%nat, 2)];
  PPock 1 11 1 4 [(5, 1%nat, 4)];
  PPock 1 3 1 2 [(2, 1%nat, 1)];
  PPock 1 67 22 4 [(11, 1%nat, 50); (3, 1%nat, 54)];
  PPock 1 269 54 16 [(67, 1%nat, 18)];
  PPock 2 1081919 705384 4 [(2011, 1%nat, 595142); (269, 1%nat, 401510)];
  PPock 2 863371363 715334831 58655428 [(1081919, 1%nat, 218577219)];
  PPock 3 3108150720741809 2393605971507431 652015489382931 [(863371363, 1%nat, 1826503626928752)];
  PPock 3 52689371018015146169 23769394925123822821 3052230164260555522 [(3108150720741809, 1%nat, 3028495162096973151)];
  PPock 4 685133274447489521482633927 320937497051016443263344997 151660351197019163026976030 [(52689371018015146169, 1%nat, 348906237952589580653535070)];
  PPock 6 38097519651259440782642293834173374907932984641 13002698949865356463198056113575512152710005288 4979728940612428600751258566828963574034864577 [(685133274447489521482633927, 1%nat, 3239861979192929841476841852513756494354101078)];
  PEc (ec_job 9 2773588836826453836850837509246312133948293074971211750294255506459178766737 1093153298944484705423067693242169030160675215295366361820693176508541370885 9 0 1833297328983257405836799442854486009687590856512180459002375535415827852515 2193004318534419180910054599596245368842890598972097216317291432184036159839 38097519651259440782642293834173374907932984641 2467665895953616565911092962289473749796961877379253136228795678980463889679 292006780831866024661593660952886771303884078880713994286809478903624101985 924529612275484612283612503082104044649431024990403916764751835486392922246) 38097519651259440782642293834173374907932984641;
  PEc (ec_job 14 32020501404021302912833884039425793432737503423263697983612815518001884056080615391006947952481306256792276220167851 23237889053190324437188822766056232837358313188345611633649995198870840361610846688908967123730348392612332708639114 32020501404021302912833884039425793432737503423263697983612815518001884056080615391006947952481306256792276220167848 26329924271304419095457947714507578219008157868509133627277946192036642894083613390825545665068111124065783461128910 4384795109558116899031340209844880216930324267159056219185253054658755773568214451199579592007051107899897339841773 5715726831182431960000233066682069430294309730009905433246002378874403861444236202837401829616635644066267550562644 2773588836826453836850837509246312133948293074971211750294255506459178766737 12136560314986539309199445177579871862342388203809104962159207951475225487309982729863001816126327382541774338041959 2881865112399790521722987011607848663408505165816908047124689654464295514455202655964042752019293038495782975837853 21347000936014201941889256026283862288491668948842465322408543678667922704053743594004631968320870837861517480111901) 2773588836826453836850837509246312133948293074971211750294255506459178766737;
  PPock 14 576369025272383452431009912709664281789275061618746563705030679324033913009451077038125063144663512622260971963021319 383435270830281036306247798827352766863056568486543144844807632425434185510508007335551155062733962679757597155348887 262144 [(32020501404021302912833884039425793432737503423263697983612815518001884056080615391006947952481306256792276220167851, 1%nat, 264446445316624589407841205949252398470319856094554281249633081774825873234119271888856433205252110415469565858529082)];
  PEc (ec_job 18 837987995621412318723376562387865382967460363787024586107722590232610251879607410804876779383055508762141059258497448934987052508775626162460930737942299 785498618884807416874128496827135667089214509686699927173782336308614014311804770312913027968379774181894891193359110788441904139239806177048470996585101 218537916176020562973443893315081968437213908761586043724445074489554494242476716954581454203450946349962801159845403792865443082523155318586592733374836 291383888234694083964591857753442624582951878348781391632593432652739325656635622606108605604601261799950401546460538390487257443364207091448790311166448 184977998147774365159315688655681848400954218626311106654625422502904599907929488692265157527470946190586141798811582459544736515147323623886709438130891 373660694542464283895600274385954944981051458939997398916271381425824860276610892108644557212777255034402948393109012797498683276149557365233058137283245 576369025272383452431009912709664281789275061618746563705030679324033913009451077038125063144663512622260971963021319 183481862522829144943188645901454588583027682443257520343313349139691798058452944251726171059842899493420667531892713192082196118818513701494786688355929 4662354983853756980715618189061254327610244631996270397025722921144553833575236127785396372945066440657118379834458733399522215368306474267813264405959 558658663747608212482251041591910255311640242524683057405148393488406834586404940536584519588703672508094039505664965956658035005850417441640620491961533) 576369025272383452431009912709664281789275061618746563705030679324033913009451077038125063144663512622260971963021319].
Lemma prime_n_M511 : prime 837987995621412318723376562387865382967460363787024586107722590232610251879607410804876779383055508762141059258497448934987052508775626162460930737942299.
Proof. apply (chain_prime chain_M511); vm_cast_no_check (eq_refl true). Qed.
Definition job_M511 : ecjob := ec_job 18 6703903964971298549787012499102923063739682910296196688861780721860882015036773488400937149083451713845015929093243025426876941405973284973216824503041861 10079128023649207975936 2234634654990432849929004166367641021246560970098732229620593573953627338345591162800312383027817237948338643031081008475625647135324428324405514379523340 3476098352207339988778450925460774921939094842375805690520923337261198081870919586578263706932160147919637889159459346517639895543837999626797346609992128 2234634654990432849929004166367641021246560970098732229620593573953627338345591162800312383027817237948338643031081008475625647135324428324405608167857438 2500410645565072423368981149139213252211568685173608590070979264248275228603899706950518127817176591878667784247582124505430745177116625808811349787373477 837987995621412318723376562387865382967460363787024586107722590232610251879607410804876779383055508762141059258497448934987052508775626162460930737942299 151564009423698904642712077814208100993435726691025820038520617552078931731894269123946744281145490003848839867512873159771273328307017889958042733635654 5337397129923902743890638000049519326259703589182226147571569463613681771247624758591027178250783624705635169805948521441317264131494111237513674117486633 4469269309980865699858008332735282042493121940197464459241187147907254676691182325600624766055634475896677286062162016951251294270648856648811216335361241.
Lemma order_M511 : job_ok job_M511 837987995621412318723376562387865382967460363787024586107722590232610251879607410804876779383055508762141059258497448934987052508775626162460930737942299.
Proof. apply job_check_ok; [exact prime_n_M511|vm_cast_no_check (eq_refl true)]. Qed.

(** E521 *)
Definition chain_E521 : list pcert := [
  PPock 1 3 1 2 [(2, 1%nat, 1)];
  PPock 1 3 1 2 [(2, 1%nat, 1)];
  PPock 1 7 1 3 [(3, 1%nat, 1); (2, 1%nat, 3)];
  PPock 1 127 16 94 [(3, 1%nat, 6); (7, 1%nat, 85)];
  PPock 1 509 337 16 [(127, 1%nat, 34)];
  PPock 2 3518209 795248 175080 [(509, 1%nat, 1676807); (2, 3%nat, 1759104)];
  PPock 2 1540975543 961116771 352439688 [(3518209, 1%nat, 250617198)];
  PPock 2 117114141269 111327270589 17985229314 [(1540975543, 1%nat, 57585458417)];
  PPock 1 17 16 9 [(2, 3%nat, 8)];
  PPock 1 137 38 119 [(17, 1%nat, 36)];
  PPock 1 823 308 64 [(137, 1%nat, 614)];
  PPock 1 42797 41043 21726 [(823, 1%nat, 16778)];
  PPock 2 1112723 676807 345484 [(42797, 1%nat, 167403)];
  PPock 4 171415053368942377352009 146577390400168037017227 4444622361756461607891 [(117114141269, 1%nat, 361885681534009715045); (1112723, 1%nat, 137929225076107691865601)];
  PPock 6 8522345418189259781744034178658821140909491 900948466928184117380204868158128287233273 6438565151372316013873965683751355737890409 [(171415053368942377352009, 1%nat, 6943198877702116481658865087187867220664348)];
  PEc (ec_job 8 67270429185030178371708934292349520908384078456294962942496317861003 28390937757750272922927219248326663104356728070393570169489007939871 67270429185030178371708934292349520908384078456294962942496317861000 53779789738298094580315769185580876654088294437229365086896125196029 66290729217399572037876572756684661216345186388606768834280360280108 36702995995246735152744305126873309470297109893008005663292556237129 8522345418189259781744034178658821140909491 41661964937938221887811073256153548993079861011516662027691038840423 184555361275802958495772110541425297416691573268298938113844493446 22423476395010059457236311430783173636128026152098320980832105953668) 8522345418189259781744034178658821140909491;
  PPock 9 141267901288563374580588762013933993907606564758219422179242267508106301 68066921884323333088629525044936610450653247486959045638403007803439118 136154758372802728950576059700887715269835930208325415919539456601237531 [(67270429185030178371708934292349520908384078456294962942496317861003, 1%nat, 92367595376770357012133672789033747829867544781751155292288554867524124)];
  PEc (ec_job 13 6138665744508886387535572360472314366713028195757622494822734750513519139469942212404231928639547743769193 2861170304410124288577065303095915914977155151148840759603976106258376722986825951666558339754938691866362 3047590936615489515270418226179531655432704593602270773926721326031536659105107312103525136040104825055290 2031727291076993010180278817453021103621803062401513849284480884021024439403404874735683424026736550036860 4391355958335095802600645891997445288061746038746592696846769385652625197249213978272802125839709734577638 1423841970250956679743920553246746786454153433250951682235522681154440863899241524245121750701801500944000 141267901288563374580588762013933993907606564758219422179242267508106301 2601518575953010842405366029665737608779113446863963590617728462741923771614932464534490571463552573699405 4664573786777948309496608278591114155427461530136428701446974945944856366769255136593684605098695338808701 4092443829672590925023714906981542911142018797171748329881823167009012759646628141602821285759698495846129) 141267901288563374580588762013933993907606564758219422179242267508106301;
  PEc (ec_job 18 1716199415032652428745475199770348304317358825035826352348615864796385795849413675475876651663657849636693659065234142604319282948702542317993421293670108523 785521185765101871495768383239770215065388905560057201233013471379070246222926856534631483354452480233823463983712988715162207677240879447095042062720726372 387920440337583690405451987282185512659734311008710276128855956383272232765692075945592377787888326202431728717915882528798453394970782468669670411050984597 830680098569273269852126391444906443212275815684415634868775925854310087126932609122353802413144834013852372167021969220638729912881369085110920705257359239 583351485255090450422285564893381416590671144564484873494010555461358079960300681066549273432436305523733110191557400208582534406211760156453700588444663328 1701408639329150511410335047478560557994121232933689467254465159821744165896027288225898529875685214088928101545945480860330158723610530286748179717606457950 6138665744508886387535572360472314366713028195757622494822734750513519139469942212404231928639547743769193 195446395381331969094444024164669701877004573772432452422207588569589220371609395157870949623309981100594839746199436195357448103374018230043177520467581246 216398690189409680528043472804123057436243805874764969296403757182230408677963976142462200218816027279554252814436021185164879768162674207367814430695105259 572066471677550809581825066590116101439119608345275450782871954932128598616471225158625550554552616545564553021744714201439760982900847439331140431223369508) 6138665744508886387535572360472314366713028195757622494822734750513519139469942212404231928639547743769193].
Lemma prime_n_E521 : prime 1716199415032652428745475199770348304317358825035826352348615864796385795849413675475876651663657849636693659065234142604319282948702542317993421293670108523.
Proof. apply (chain_prime chain_E521); vm_cast_no_check (eq_refl true). Qed.
Definition map_E521 : Z * Z * Z * Z := (42921530521301180644182941581161271368962521151116075203080684527333250067598072892145626411699213219556729460477298770648175721147650571395719693396304665, 42921530521301180644182941581161271368962521151116075203080684527333250067598072892145626411699213219556729460477298770648175721147650571395719693396304667, 1248145029114656311814891054378435130412624600026055528980811538033735124254119282204101752847537191814053874798451065097658543272675753420468005143839101299, 5980766415880832522019654364051915436934830314181943423452462566999282845418239031272084435061037382107860415578825836349253985050094206205497606101268563785).
Definition job_E521 : ecjob := ec_job 18 6864797660130609714981900799081393217269435300143305409394463459185543183397656052122559640661454554977296311391480858037121987999716643812574028291115057151 274877906944 4433515155501018774259144266073399786153176964675884743567257650723996639277652866995819767927189400089503867773664720815641283916483665795620726601733031410 1628800370748582166170474147930191677708604440427520380701232649459532815505230891996672136962497897882344610920432379511122693911969805534233482601456415311 4628537816300183822980220993320030275280149558429955919970509453541767752442359004840210666809617086310449785710922699737150431302839252267568852408403160224 6420795726233711503608707176615091743295012119545152838705499775608303471100221248909681207683755707403202862093512835495565442999329110717251077602138644459 1716199415032652428745475199770348304317358825035826352348615864796385795849413675475876651663657849636693659065234142604319282948702542317993421293670108523 4561225139731692240108622282334807021173574006704100888567811360179442450343837288877690573404661967189815750868049186811667735145104192693987778789010004747 1072898237309936770364125291448329908297237740550865179660477062497641049085970582556902199887604399117725994307717792452543064899212392362896061719932658136 4576531773420406476654600532720928811512956866762203606262975639457028788931770701415039760440969703318197540927653905358081325333144429208382685527410038101.
Lemma order_E521 : job_ok job_E521 1716199415032652428745475199770348304317358825035826352348615864796385795849413675475876651663657849636693659065234142604319282948702542317993421293670108523.
Proof. apply job_check_ok; [exact prime_n_E521|vm_cast_no_check (eq_refl true)]. Qed.
