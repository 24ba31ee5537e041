(** Orders of the generators of built-in curves, checked by evaluation.  Generated by tools/gen_orders.py. *)
From Coq Require Import ZArith List Znumtheory.
From Verif Require Import Proofs.EcCheck Proofs.PrimeChain.
Import ListNotations.
Local Open Scope Z_scope.

(** SECP_384r1 *)
Definition chain_SECP_384r1 : list pcert := [
  PPock 1 13 1 8 [(2, 2%nat, 6)];
  PPock 1 313 48 274 [(13, 1%nat, 11); (2, 2%nat, 156)];
  PPock 1 21911 16324 19594 [(313, 1%nat, 6872)];
  PPock 1 3 1 2 [(2, 1%nat, 1)];
  PPock 1 19 7 4 [(3, 2%nat, 16)];
  PPock 1 17 16 9 [(2, 3%nat, 8)];
  PPock 1 647 509 4 [(19, 1%nat, 591); (17, 1%nat, 534)];
  PPock 1 9059 5486 7325 [(647, 1%nat, 3232)];
  PPock 1 18119 13927 4 [(9059, 1%nat, 6040)];
  PPock 2 2688520629749 2479771480892 1418618912807 [(21911, 1%nat, 2608824754158); (18119, 1%nat, 892513217794)];
  PPock 2 129048990227953 16085582489734 23376996254750 [(2688520629749, 1%nat, 58566432985910)];
  PPock 1 5 1 2 [(2, 2%nat, 2)];
  PPock 1 251 20 64 [(5, 2%nat, 38)];
  PPock 1 503 370 4 [(251, 1%nat, 168)];
  PPock 1 10061 3907 2232 [(503, 1%nat, 7955)];
  PPock 1 20123 6065 4 [(10061, 1%nat, 6708)];
  PPock 1 163 136 64 [(3, 3%nat, 19)];
  PPock 1 653 117 16 [(163, 1%nat, 566)];
  PPock 2 283200155089 196835852210 10396632955 [(20123, 1%nat, 152742146721); (653, 1%nat, 73024680434)];
  PPock 4 36886359021104562008278365181199 15608456637591832056517090377132 36780510012066448717506131891859 [(129048990227953, 1%nat, 35208755655053695304272264051557); (283200155089, 1%nat, 8174388217576960547627130614593)];
  PPock 6 1288146182659373853239416781835821556633989 486595574592257785028943559791223458520966 830548024836110265933010528870515771018407 [(36886359021104562008278365181199, 1%nat, 799078994343222970821564355077058946032487)];
  PEc (ec_job 10 4626215805793376224551275839496920322241974757104350072020811960546502499885241 2098411714559968097392311407293104880925412048060466576427548632141469945926533 2244591404419581008020519855781026367972267474532926515065280031804479641421294 3038466204877512746864105183686324352728836568723401034050457341385153927575943 3679254650050849814427929696086599545873559061838387897327498465498156449533707 4319144565961539842637702055598069881833432215023876266786379889606441895454315 1288146182659373853239416781835821556633989 2539117483527737752217954038088524926168207007108794866288649149606824620728708 2606697401203818622490693495259596541321673909877252251891878255541478889894190 3084143870528917483034183892997946881494649838069566714680541307031001666590161) 1288146182659373853239416781835821556633989;
  PEc (ec_job 14 39402006196394479212279040100143613805079739270465446667946905279627659399113263569398956308152294913554433653942643 27143877798560785715481858568072126650438518036977855856337843401488647738026978652147012697999947472135789301070259 9959544926241189135965441880344806702337786283740361174953175841463067101401598095233015640099763290381590661648368 13279393234988252181287255840459742269783715044987148233270901121950756135202130793644020853466351053842120882197824 37173683243484369986917775960129708889025179102167936516017021825813213789269289620254214254938279033045477068209657 35137940428026290140805295967859267167392701071122512346631441278651432556183575401133205998091643680971055126801302 4626215805793376224551275839496920322241974757104350072020811960546502499885241 37364954646402914505224156882299912298386102421494703332771885265705699323144716315480352184941459597632737702769229 19731639907491631959388092747423386988963655415820067313208325835048156388088067001594198870111988058643651327740031 26268004130929652808186026733429075870053159513643631111964603519751772932742175712932637538768196609036289102628429) 4626215805793376224551275839496920322241974757104350072020811960546502499885241].
Lemma prime_n_SECP_384r1 : prime 39402006196394479212279040100143613805079739270465446667946905279627659399113263569398956308152294913554433653942643.
Proof. apply (chain_prime chain_SECP_384r1); vm_cast_no_check (eq_refl true). Qed.
Definition job_SECP_384r1 : ecjob := ec_job 14 39402006196394479212279040100143613805079739270465446667948293404245721771496870329047266088258938001861606973112319 546812681450382478164579092393910505724317672442839539838968282681519054480696791503197440535691264 39402006196394479212279040100143613805079739270465446667948293404245721771496870329047266088258938001861606973112316 27580193559959705877849011840389048093056905856361568521428707301988689241309860865136260764883745107765439761230575 26247035095799689268623156744566981891852923491109213387815615900925518854738050089022388053975719786650872476732087 8325710961489029985546751289520108179287853048861315594709205902480503199884419224438643760392947333078086511627871 39402006196394479212279040100143613805079739270465446667946905279627659399113263569398956308152294913554433653942643 35697135570685503493778051472987374855106491482507515343668325377522989862196811164599728167477310201489852229390246 10520351169895739632903002208024995240561415281189647170712129193674637846202765788082671702912566059106164431904632 13134002065464826404093013366714537935026579756821815555982764468081907257165623443015755362752979333953868991037440.
Lemma order_SECP_384r1 : job_ok job_SECP_384r1 39402006196394479212279040100143613805079739270465446667946905279627659399113263569398956308152294913554433653942643.
Proof. apply job_check_ok; [exact prime_n_SECP_384r1|vm_cast_no_check (eq_refl true)]. Qed.

(** BrainPoolP320r1 *)
Definition chain_BrainPoolP320r1 : list pcert := [
  PPock 1 13 1 8 [(2, 2%nat, 6)];
  PPock 1 157 99 64 [(13, 1%nat, 145); (2, 1%nat, 78)];
  PPock 1 5 1 2 [(2, 2%nat, 2)];
  PPock 1 39251 23670 29998 [(157, 1%nat, 1684); (5, 1%nat, 23922)];
  PPock 1 3 1 2 [(2, 1%nat, 1)];
  PPock 2 205122193411 6494411217 45112959020 [(39251, 1%nat, 137606384939); (5, 1%nat, 81561294902); (3, 1%nat, 12307508720)];
  PPock 3 4161929304309191 469945073403235 1664991311134570 [(205122193411, 1%nat, 1963329291716025)];
  PPock 1 7 1 3 [(3, 1%nat, 1); (2, 1%nat, 3)];
  PPock 1 43 16 9 [(7, 1%nat, 14); (3, 1%nat, 16)];
  PPock 1 37 10 16 [(3, 2%nat, 3)];
  PPock 2 4484624887 3119554784 3701330808 [(43, 1%nat, 840447853); (37, 1%nat, 4429306989); (3, 3%nat, 3693163910); (7, 1%nat, 4138929533)];
  PPock 6 56834084706324953499635029374333218339957513609 48242005757614987428507888098825655547429099588 30539505164388331778729477292757015540869318138 [(4161929304309191, 1%nat, 45593028401250162764965970439480600116806690764); (4484624887, 1%nat, 25287202059311029691778819511526430182555702000)];
  PPock 9 23341373081361435103090946041083073851794115571864009670215941767494551877 9586288357907480889402876650091825061675047186720315953652085273690041518 18645658113269637658534271046059722981974553878310588122084692176856685946 [(56834084706324953499635029374333218339957513609, 1%nat, 12788410898347673871853283327520890443870046752710065166392773627327470816)];
  PPock 10 299589410500344960818634453344053290288849906371853185689121682914766027672438458623 298732624301913055846617448726903351301907767243273385752391253020641316506940260708 54000649271677572064666488828857268563945611833659175662098023719251445947885867417 [(23341373081361435103090946041083073851794115571864009670215941767494551877, 1%nat, 82454894601090726154077090061979502360847853355401117904172421721257219542877639832)];
  PPock 12 1763593322239166354161909842446019520889512772717686063760686124016784784845843468355685258203921 492041602354263770487650525005237432408527184578954210190938110355483656183252705084929309289605 76666313004324207422006291114950466864210528680261859972832888457681693432641500820763885798520 [(299589410500344960818634453344053290288849906371853185689121682914766027672438458623, 1%nat, 766595687212296668546859936508474779291984640228983919052396400366092224398121181523896458417997)]].
Lemma prime_n_BrainPoolP320r1 : prime 1763593322239166354161909842446019520889512772717686063760686124016784784845843468355685258203921.
Proof. apply (chain_prime chain_BrainPoolP320r1); vm_cast_no_check (eq_refl true). Qed.
Definition job_BrainPoolP320r1 : ecjob := ec_job 12 1763593322239166354161909842446019520889512772719515192772960415288640868802149818095501499903527 1715364249400526931297747512409170107240452130376395198086713663883905252821437845478820709094878 524709318439392693105919717518043758943240164412117372990311331314771510648804065756354311491252 684460840191207052139729091116995410883497412720006364295713596062999867796741135919289734394278 565203972584199378547773331021708157952136817703497461781479793049434111597020229546183313458705 175146432689526447697480803229621572834859050903464782210773312572877763380340633688906597830369 1763593322239166354161909842446019520889512772717686063760686124016784784845843468355685258203921 1510526228250431845096844377832984040087619972361575696520992932257407879771523478700572703336385 743402981805742593912506760358061242421145943049698766061597223508452058045593721502683203872586 587864440746388784720636614148673173629837590906505064257653471762880289600716606031833833301176.
Lemma order_BrainPoolP320r1 : job_ok job_BrainPoolP320r1 1763593322239166354161909842446019520889512772717686063760686124016784784845843468355685258203921.
Proof. apply job_check_ok; [exact prime_n_BrainPoolP320r1|vm_cast_no_check (eq_refl true)]. Qed.

(** BrainPoolP320t1 *)
Definition job_BrainPoolP320t1 : ecjob := ec_job 12 1763593322239166354161909842446019520889512772719515192772960415288640868802149818095501499903527 1715364249400526931297747512409170107240452130376395198086713663883905252821437845478820709094878 1763593322239166354161909842446019520889512772719515192772960415288640868802149818095501499903524 1401395435032847536924656852322353441447762422733674743806973258207878888547540276867732868432723 1221175819973001316491038958226563119032598033059331804921649457916311604176688737745420093746514 832095900618272253462376182163435186143818309959785348829039065198217071225345202726924484399811 1763593322239166354161909842446019520889512772717686063760686124016784784845843468355685258203921 105519023501703955017650973728169679784612376603345779332790700881256814916899149072777316613829 203682979688010966458693144671773550612344127065716057228109333521539692145960035225131199602503 587864440746388784720636614148673173629837590906505064257653471762880289600716606031833833301176.
Lemma order_BrainPoolP320t1 : job_ok job_BrainPoolP320t1 1763593322239166354161909842446019520889512772717686063760686124016784784845843468355685258203921.
Proof. apply job_check_ok; [exact prime_n_BrainPoolP320r1|vm_cast_no_check (eq_refl true)]. Qed.

(** BrainPoolP384r1 *)
Definition chain_BrainPoolP384r1 : list pcert := [
  PPock 1 3 1 2 [(2, 1%nat, 1)];
  PPock 1 19 7 4 [(3, 2%nat, 16)];
  PPock 1 5 1 2 [(2, 2%nat, 2)];
  PPock 1 571 563 158 [(19, 1%nat, 263); (5, 1%nat, 320)];
  PPock 1 43397 21635 4576 [(571, 1%nat, 34784)];
  PPock 2 11543603 7259549 4644979 [(43397, 1%nat, 1714135)];
  PPock 2 1454493979 318965797 50895302 [(11543603, 1%nat, 127806526)];
  PPock 1 7 1 3 [(3, 1%nat, 1); (2, 1%nat, 3)];
  PPock 1 29 16 4 [(7, 1%nat, 2); (2, 1%nat, 14)];
  PPock 1 59 4 4 [(29, 1%nat, 20)];
  PPock 1 13 1 8 [(2, 2%nat, 6)];
  PPock 1 53 44 16 [(13, 1%nat, 46)];
  PPock 2 11594917 4538413 7474679 [(59, 1%nat, 8586449); (53, 1%nat, 3508633); (3, 1%nat, 3267968)];
  PPock 1 1801 1024 654 [(3, 2%nat, 24); (2, 3%nat, 900)];
  PPock 1 28817 4017 7902 [(1801, 1%nat, 1065)];
  PPock 2 5071793 751334 1529468 [(28817, 1%nat, 1101785)];
  PPock 6 2788900573532341797131599550190476443808598899 1942349854776333105295397327080203520516408024 1025779089582320489537799265404716218516851822 [(1454493979, 1%nat, 1583560924007597315645354139170377447073956135); (11594917, 1%nat, 1502297945156527933466084161701457038477645436); (5071793, 1%nat, 698801291501723990373664113788451828138359162)];
  PPock 7 669909697361913545660898382546007419518544524592370543 73501373609334710304113475527021354758546388097135124 640093040736131505187168390086969230074145600489316289 [(2788900573532341797131599550190476443808598899, 1%nat, 519136795617045121268162467342718511295987927661735653)];
  PPock 8 90050068090664042551646936303486902724615855323314057604193773 41218862018677171860510254358254253337586460449415350993963672 69956533408516809605491217315586076635329733994132581285800711 [(669909697361913545660898382546007419518544524592370543, 1%nat, 61769177632366297338544823469855568429487710022487625510590641)];
  PPock 14 21659270770119316173069236842332604979796116387017648600075645274821611501358515537962695117368903252229601718723941 13367944009992740223422100173536838015610468982186073424696003494984122304761322896104689026890337162265319371487818 21154878553981196651389597166510161425993053925691337649291307419712136879882277657889536770695842146518191505280131 [(90050068090664042551646936303486902724615855323314057604193773, 1%nat, 10195736119204501266634097526710668441456608532539919042877583015558437932360610327168691170619298681063410965212292)]].
Lemma prime_n_BrainPoolP384r1 : prime 21659270770119316173069236842332604979796116387017648600075645274821611501358515537962695117368903252229601718723941.
Proof. apply (chain_prime chain_BrainPoolP384r1); vm_cast_no_check (eq_refl true). Qed.
Definition job_BrainPoolP384r1 : ecjob := ec_job 14 21659270770119316173069236842332604979796116387017648600081618503821089934025961822236561982844534088440708417973331 19495849387766739495609970793390083775380696202208041722643196172827687209102993130681825585987354788525069379743609 19048979039598244295279281525021548448223459855185222892089532512446337024935426033638342846977861914875721218402342 717131854892629093329172042053689661426642816397448020844407951239049616491589607702456460799758882466071646850065 4480579927441533893329522230328287337018133311029754539518372936441756157459087304048546502931308754738349656551198 21354446258743982691371413536748675410974765754620216137225614281636810686961198361153695003859088327367976229294869 21659270770119316173069236842332604979796116387017648600075645274821611501358515537962695117368903252229601718723941 14366139371790466401364318496992885262453792121929867754303777075798090392654524263839589550603779233855184934533013 15135026255818329658905292603664847625339781044254403147536308828561789869570593116010371780325354778674641254594944 14439513846746210782046157894888403319864077591345099066721079002547393289350641214824374655229689392293805611982221.
Lemma order_BrainPoolP384r1 : job_ok job_BrainPoolP384r1 21659270770119316173069236842332604979796116387017648600075645274821611501358515537962695117368903252229601718723941.
Proof. apply job_check_ok; [exact prime_n_BrainPoolP384r1|vm_cast_no_check (eq_refl true)]. Qed.

(** BrainPoolP384t1 *)
Definition job_BrainPoolP384t1 : ecjob := ec_job 14 21659270770119316173069236842332604979796116387017648600081618503821089934025961822236561982844534088440708417973331 19495849387766739495609970793390083775380696202208041722643196172827687209102993130681825585987354788525069379743609 21659270770119316173069236842332604979796116387017648600081618503821089934025961822236561982844534088440708417973328 19596161053329239268181228455226581162286252326261019516900162717091837027531392576647644262320816848087868142547438 3827769047710394604076870463731979903132904572714069494181204655675960538951736634566672590576020545838501853661388 5797643717699939326787282953388004860198302425468870641753455602553471777319089854136002629714659021021358409132328 21659270770119316173069236842332604979796116387017648600075645274821611501358515537962695117368903252229601718723941 1053712402125933338445126483796211492383179229494238548756003543148706120992649476175421439549425849007232327325175 9175554635936642519016729567240903607397317545277950997911846071952350851672554574220339545132221607141965315388245 14439513846746210782046157894888403319864077591345099066721079002547393289350641214824374655229689392293805611982221.
Lemma order_BrainPoolP384t1 : job_ok job_BrainPoolP384t1 21659270770119316173069236842332604979796116387017648600075645274821611501358515537962695117368903252229601718723941.
Proof. apply job_check_ok; [exact prime_n_BrainPoolP384r1|vm_cast_no_check (eq_refl true)]. Qed.
