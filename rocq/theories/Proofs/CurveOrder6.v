(** Orders of the generators of built-in curves, checked by evaluation.  Generated by tools/gen_orders.py. *)
From Coq Require Import ZArith List Znumtheory.
From Verif Require Import Proofs.EcCheck Proofs.PrimeChain.
Import ListNotations.
Local Open Scope Z_scope.

(** GOST2012_test *)
Definition chain_GOST2012_test : list pcert := [
  PPock 1 13 1 8 [(2, 2%nat, 6)];
  PPock 1 3 1 2 [(2, 1%nat, 1)];
  PPock 1 79 18 4 [(13, 1%nat, 74); (3, 1%nat, 18)];
  PPock 1 1423 1066 312 [(79, 1%nat, 787)];
  PPock 1 5693 2432 16 [(1423, 1%nat, 4934)];
  PPock 2 182177 283 144521 [(5693, 1%nat, 64096)];
  PPock 1 19 7 4 [(3, 2%nat, 16)];
  PPock 1 457 42 257 [(19, 1%nat, 318); (2, 1%nat, 228)];
  PPock 2 13856943725161 8592525259556 8879259615724 [(182177, 1%nat, 3120766537193); (457, 1%nat, 5222835386142)];
  PPock 3 720921354245226187 64562261044438887 469747722302758356 [(13856943725161, 1%nat, 32906216440604775)];
  PPock 4 90180425864066825008433790061457 47258104536876792083257486241677 43374378876458675948488346453098 [(720921354245226187, 1%nat, 66231010840255666050408798826634)];
  PEc (ec_job 8 131171784297994391669270727548337621810539280492756891604059829 71612563114990856225279734003781181074923813578761584896009109 92540115395115728977905420896634525737540023004357599073883784 79662892427489508080783652012733493713206937174891168230491769 18389344568067328101779115911124309956617124027855280355467672 79510485798091882892865167736949918972434547440929008035183003 90180425864066825008433790061457 101813617953186862409700875075578105176414464528170612753037862 71359909005682450229853706334008396912808108317536653015679854 87447856198662927779513818365558414540359520328504594402706553) 90180425864066825008433790061457;
  PPock 9 32676574140279377636871671637183891668017920368635902783976800283386413 10461166613448477994839566641755637883875776218287557130526124453415914 19296557158772264338359895797576043083376736123396547602187944183343712 [(131171784297994391669270727548337621810539280492756891604059829, 1%nat, 2900695562907302076885556970886996064765494805672355440800144042595363)];
  PEc (ec_job 14 880133608765092323779105154829777404419776884283322966989004294547086364070704666321980645873660188751368957749636756399 677354696608205094985630966327103916444190351824411857215842918637588193379262872129465862004526966620976526716661452964 880133608765092323779105154829777404419776884283322966989004294547086364070704666321980645873660188751368957749636756396 29211796596058694816993756746628684257463653894866074461685112656435641832435911935275910986806697987933027492052342362 760704146678391306368118444884584685478154035671510768861994686741810316343160440683155698632342325196818454711598939482 766800470737614576075613899683321001987464787164421517562824114284894292047257673760048029304645190105879636127904036977 32676574140279377636871671637183891668017920368635902783976800283386413 553224371875368857607747894959843696444108756215384962560131976816618432792640016010429921708875484632319172781504316986 5915469541206764646074759346981561686236716420092861054227876250189651414598834607267162437689893380486300815151143258 293377869588364107926368384943259134806592294761107655663001431515695454690234888773993548624553396250456319249878918800) 32676574140279377636871671637183891668017920368635902783976800283386413;
  PPock 15 24414906307143661061632376994978025198604610770019379104274979130736175739321347443771743116535333635962974887974923622508261 11792898831086634928431453445701779599879715046889129633997977910703442381801557180990926175400849040962964573266471497367473 19017086380016539194769075674386838360263131009522970849463249085947726170310140195143841264498298145190338722713281843750238 [(880133608765092323779105154829777404419776884283322966989004294547086364070704666321980645873660188751368957749636756399, 1%nat, 20109014900271966741618397075226616232213636904678809266564806741115764381489705823823914454480116848092690756230430030583989)];
  PEc (ec_job 18 3623986102229003635907788753683874306021320925534678605086546150450856166623969164898305032863068499961404079437936585455865192212970734808812618120619743 769185078394186267962470524459180588529658201759202009510056715173249390587006788027579198340827443549899341097933455056833719937005132064796605274744660 3623986102229003635907788753683874306021320925534678605086546150450856166623969164898305032863068499961404079437936585455865192212970734808812618120619740 3054811377904318458338921385078591813893370638461572429863655212338518964433435413039723867602441384810322517502388741905946592702914760449267724054111714 2967036012969128940193730071095830405434682913892539299664270504218976672988928981059398307063432227031771319257985503883107264651862755292609200880866911 674232385141005874086837553725791963989761698094322490355969422248402170014674719976688109211000370432308612324148335396407802225479235732631303570034782 24414906307143661061632376994978025198604610770019379104274979130736175739321347443771743116535333635962974887974923622508261 3001492276196744872266968324246800984435096823064812835986865500996734181965732803558205304380254817458255021627335357948756411592359679592492602760816781 2356126222303016698506692817709127411377619309010956286550468466251560525793406078922951599087677608685288485869995689743275044221589442773099845060384384 1207995367409667878635929584561291435340440308511559535028848716816952055541323054966101677621022833320468026479312195151955064070990244936270872706873248) 24414906307143661061632376994978025198604610770019379104274979130736175739321347443771743116535333635962974887974923622508261].
Lemma prime_n_GOST2012_test : prime 3623986102229003635907788753683874306021320925534678605086546150450856166623969164898305032863068499961404079437936585455865192212970734808812618120619743.
Proof. apply (chain_prime chain_GOST2012_test); vm_cast_no_check (eq_refl true). Qed.
Definition job_GOST2012_test : ecjob := ec_job 18 3623986102229003635907788753683874306021320925534678605086546150450856166624002482588482022271496854025090823603058735163734263822371964987228582907372403 894627669671032357176450023158314322290255123120432773523180288261440604273765071691245497342340273532366958084376419125234221000573927890580193072780300 7 1518655069210828534508950034714043154928747527740206436194018823352809982443793732829756914785974674866041605397883677596626326413990136959047435811826396 1928356944067022849399309401243137598997786635459507974357075491307766592685835441065557681003184874819658004903212332884252335830250729527632383493573274 2288728693371972859970012155529478416353562327329506180314497425931102860301572814141997072271708807066593850650334152381857347798885864807605098724013854 3623986102229003635907788753683874306021320925534678605086546150450856166623969164898305032863068499961404079437936585455865192212970734808812618120619743 1293468033713740968496255341497274022745308324895268488807311215015899727062239159860324687202001643431406326399944081243994561974266847226932554665545855 734839954590953188452770145797685556813586023146737114676080967074457376840826583766420415741889236908337257014709112188373785798481114787801742839851298 2415990734819335757271859169122582870680880617023119070057697433633904111082668321725654681514331236016727215735372490109156175881581309991485721938248269.
Lemma order_GOST2012_test : job_ok job_GOST2012_test 3623986102229003635907788753683874306021320925534678605086546150450856166623969164898305032863068499961404079437936585455865192212970734808812618120619743.
Proof. apply job_check_ok; [exact prime_n_GOST2012_test|vm_cast_no_check (eq_refl true)]. Qed.

(** GOST2012_tc26_B *)
Definition chain_GOST2012_tc26_B : list pcert := [
  PPock 1 3 1 2 [(2, 1%nat, 1)];
  PPock 1 7 1 3 [(3, 1%nat, 1); (2, 1%nat, 3)];
  PPock 1 5 1 2 [(2, 2%nat, 2)];
  PPock 1 421 370 307 [(7, 1%nat, 170); (5, 1%nat, 368)];
  PPock 1 17683 12917 15415 [(421, 1%nat, 9539)];
  PPock 2 1060981 1029413 538809 [(17683, 1%nat, 90759)];
  PPock 2 668418031 383419300 610539057 [(1060981, 1%nat, 533416343)];
  PPock 2 816806833883 159598537902 229731444427 [(668418031, 1%nat, 674242307159)];
  PPock 1 37 10 16 [(3, 2%nat, 3)];
  PPock 1 23311 9457 11457 [(37, 1%nat, 14776); (3, 2%nat, 3152)];
  PPock 1 29 16 4 [(7, 1%nat, 2); (2, 1%nat, 14)];
  PPock 1 59 4 4 [(29, 1%nat, 20)];
  PPock 1 13 1 8 [(2, 2%nat, 6)];
  PPock 1 10739 10688 5645 [(59, 1%nat, 10106); (13, 1%nat, 2630)];
  PPock 2 500673659 234961861 4 [(23311, 1%nat, 497313980); (10739, 1%nat, 260656053)];
  PPock 4 4320186529910121307343909 2586466806974131943712199 189571450696630175723108 [(816806833883, 1%nat, 2778696139532253043225723); (500673659, 1%nat, 2082118170569658162930981)];
  PPock 4 34561492239280970458751273 31993222945958126249173057 256 [(4320186529910121307343909, 1%nat, 18026190069899486552995762)];
  PPock 4 1597985155175394950130823858429 507107834444351202605606246541 1307962912760027386979049744659 [(34561492239280970458751273, 1%nat, 564398296040570989176803799400)];
  PPock 5 31403824491037066591499817894944285817349 29216558767715118935858089361888773863095 25780968933376853782142126418195526167163 [(1597985155175394950130823858429, 1%nat, 11993972772888034373443827160568467559030)];
  PPock 6 1439300084073210836021619653761086507580739369 91627855632610801986773777480281610714644664 812924023843355306982522906464403065930080633 [(31403824491037066591499817894944285817349, 1%nat, 108187360088974585006761402416815432257697498)];
  PEc (ec_job 11 539539676638146252332438762368326178374664113417997407389234042554543619981956406210579 386127506279917462146659643726385839768117981490958100327749754078596133008969935443027 539539676638146252332438762368326178374664113417997407389234042554543619981956406210576 151473187020643895780040093438693788724423647042907600940263459609933935637419943715883 479936954348712616897146271219384760837097985344939882734740435611140323429071507673917 314699169519962359283743387493210361399273119601187058609438935217019661725016531116425 1439300084073210836021619653761086507580739369 27108422493861232017772262998512789129958454419245687672592409767521578719165215643894 432814468079954621585498788699740859266442668731451840519263765015362357997684128821207 179846558879382084110812920789442059458221371139332469129744680851514539993985468736860) 1439300084073210836021619653761086507580739369;
  PPock 12 6934458157477197745950681701337691716675829213065403606583048380724947236019209865952665406648463131269 5617511250525761970216860695267946911936032362994352899906859378965043269902674475463706606240995220417 2383569734105399520819554945814132180253947297388579302444214306529111375248491119932074188216490569106 [(539539676638146252332438762368326178374664113417997407389234042554543619981956406210579, 1%nat, 3930925899918321013852343453718408146015337912140073487858584442587079615325883990323435519378046660331)];
  PEc (ec_job 15 47027135855253862293695221904893529952882567781986512512560214543064399068519017805091617745746803253071739920867384142251535402763 38303858161358262317383269938315840937805860758086247737357945535849342273847926627992845547730609702654698550234499998479779184593 47027135855253862293695221904893529952882567781986512512560214543064399068519017805091617745746803253071739920867384142251535402760 10030310567967210368940257143085514797273977769524427384746245037056671279040366710326652520008550859028144574068765945243184831827 30801893043579228473972585328274501386234747250867537347026906425783704147403825258580343439578870119202507185515331031401598073861 3068017134268774507880062666007208259690174192135157063941912401452911888530747007164283948722355107375034808269807542257756426284 6934458157477197745950681701337691716675829213065403606583048380724947236019209865952665406648463131269 41952827376126878943135946253723781470651273690058337472874267307116606920074874320838323709432714917379821799015471455460492351918 30512805568635222036924334651597585278070582388037888091139892289258519560232504007967537988666993057205669386241800684890228045963 15675711951751287431231740634964509984294189260662170837520071514354799689506339268363872581915601084357246640289128047417178467588) 6934458157477197745950681701337691716675829213065403606583048380724947236019209865952665406648463131269;
  PPock 16 5984062708607661899347632600855537484210927348675522269469949820924748277302224554948777964758927405492471738858450763827227401419949905209 2965497133061647044813885489667480856051459561685450871977785578599629233227251656980905431847237528742662308546142386971675556784869840719 342681011284986599602077781223397150669025084207260697295474523240417676041469884658086456488259929248252855881785616583725602472789986373 [(47027135855253862293695221904893529952882567781986512512560214543064399068519017805091617745746803253071739920867384142251535402763, 1%nat, 3631384920794260259562944563117524356583785567436440249281833545823151828693660608049640364400626881247631146958745050333082659987699969995)];
  PPock 17 40042164124641494154303904424381601698397925603987099649445546188323683505622961938253989390289490448175898881475679815725449685324749352309056813 33827313011972569202831033602231291068839317770254562918520387175889791130911522098947869584790766935156200217518078856927510918252247715205973558 4245690124292067854189103752620035124775244218077907304120503691908646945485271882804951619870037711847741107299037116579999701100198677748549610 [(5984062708607661899347632600855537484210927348675522269469949820924748277302224554948777964758927405492471738858450763827227401419949905209, 1%nat, 23653744816029650752779124661766557804830015122910623340503021685283913738127373208394112994085359285305954209178553641800990658413500175254488295)];
  PPock 17 233846238487906325861134801838388553918643885527284661952761989739810311672838097719403298039290624217347249467817970123836626162296536217484891787921 124404789084148453412470758175731486166292796243754186074096386848111387916264981833914600787881255296300928004302592657083112082185304259603219245535 38755950370530338987220403441704272029758036103182628369702229452866084171616118693595940299011144120294037834504493738285328812937352289118834289336 [(40042164124641494154303904424381601698397925603987099649445546188323683505622961938253989390289490448175898881475679815725449685324749352309056813, 1%nat, 41038204229136054759356495582535390203805870882695693962557044446791295555169425892755786319165377445230788649135588819546851013703214804434126519887)];
  PPock 18 6703903964971298549787012499102923063739682910296196688861780721860882015036922585419853748190383615062910947743405567510148398820717100282856877776119229 3402972600965739481355329315726412230781362733528962532788290135741060161601867287885434994483734690197088861973511025235082552377947089990133988233265931 6673917026802893245229989703874473307847107630555349290480913008812580164907252577825547848432683190783279527523139826223480485157945224537934258489593779 [(233846238487906325861134801838388553918643885527284661952761989739810311672838097719403298039290624217347249467817970123836626162296536217484891787921, 1%nat, 3280772037914604141313611295907319362387216320747462599171911365580396660105075775707451699452943797912172226181985672874150963604303231089899729061001655)]].
Lemma prime_n_GOST2012_tc26_B : prime 6703903964971298549787012499102923063739682910296196688861780721860882015036922585419853748190383615062910947743405567510148398820717100282856877776119229.
Proof. apply (chain_prime chain_GOST2012_tc26_B); vm_cast_no_check (eq_refl true). Qed.
Definition job_GOST2012_tc26_B : ecjob := ec_job 18 6703903964971298549787012499102923063739682910296196688861780721860882015036773488400937149083451713845015929093243025426876941405973284973216824503042159 3551286464565240397824 6703903964971298549787012499102923063739682910296196688861780721860882015036773488400937149083451713845015929093243025426876941405973284973216824503042156 5472517130514047254760433071281657274171034389553769779747941603125796549693907036696237273952702637857580071293254240945079496484373854264998452887027990 2 1391087797795557258711735874750463328666729297647553860794340434982072762491277963324668489993185089365703033494204180568181905548968011075910357787492797 6703903964971298549787012499102923063739682910296196688861780721860882015036922585419853748190383615062910947743405567510148398820717100282856877776119229 4611225021955760983195978597805547319502935753557673106937770352467999566362050736527757952095148597759582371656236659190512896272122588442564939451675289 5491411734303384687001535006409819129529012351701496317752631658400785500491075845915812222060616663565685948835700742049247561874704607087653459844318573 2234634654990432849929004166367641021246560970098732229620593573953627338345591162800312383027817237948338643031081008475625647135324428324405608167680720.
Lemma order_GOST2012_tc26_B : job_ok job_GOST2012_tc26_B 6703903964971298549787012499102923063739682910296196688861780721860882015036922585419853748190383615062910947743405567510148398820717100282856877776119229.
Proof. apply job_check_ok; [exact prime_n_GOST2012_tc26_B|vm_cast_no_check (eq_refl true)]. Qed.
