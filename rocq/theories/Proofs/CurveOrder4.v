(** Orders of the generators of built-in curves, checked by evaluation.  Generated by tools/gen_orders.py. *)
From Coq Require Import ZArith List Znumtheory.
From Verif Require Import Proofs.EcCheck Proofs.PrimeChain.
Import ListNotations.
Local Open Scope Z_scope.

(** BrainPoolP512r1 *)
Definition chain_BrainPoolP512r1 : list pcert := [
  PPock 1 3 1 2 [(2, 1%nat, 1)];
  PPock 1 19 7 4 [(3, 2%nat, 16)];
  PPock 1 40129 36808 11397 [(2, 4%nat, 20064); (19, 1%nat, 17029)];
  PPock 1 271 169 188 [(3, 3%nat, 9); (2, 1%nat, 135)];
  PPock 2 361396637489 78683995357 255017093217 [(40129, 1%nat, 40458416456); (271, 1%nat, 321274329047)];
  PPock 1 5 1 2 [(2, 2%nat, 2)];
  PPock 1 11 1 4 [(5, 1%nat, 4)];
  PPock 1 23 9 4 [(11, 1%nat, 8)];
  PPock 1 13 1 8 [(2, 2%nat, 6)];
  PPock 2 1288691 972421 652302 [(23, 1%nat, 304422); (13, 1%nat, 305650); (5, 1%nat, 742831); (2, 1%nat, 644345)];
  PPock 4 191760954274777244141857 110366018652499219065102 67078852996309134357727 [(361396637489, 1%nat, 24732395302386147046462); (1288691, 1%nat, 7887475477764614939598)];
  PPock 1 251 20 64 [(5, 2%nat, 38)];
  PPock 2 8332699 7001225 6805616 [(251, 1%nat, 4552887); (11, 1%nat, 6165290); (3, 1%nat, 2693368)];
  PPock 1 37 10 16 [(3, 2%nat, 3)];
  PPock 2 516521 128475 383493 [(37, 1%nat, 244726); (2, 3%nat, 258260); (5, 1%nat, 71266)];
  PPock 8 4982806528470961888578867896009647265488138691022009860168845631273 116834595817713472019445144980035281740477600057904068614110438487 2419934845212847185043570515165709054160141366652004637997426803766 [(191760954274777244141857, 1%nat, 904232996124380750125123134300215287529233505772150901796809836137); (8332699, 1%nat, 2374240328232864502280093390557384604443520537370690102718225939405); (516521, 1%nat, 3851162774401309110912951225981828556683043806087855254128080922214)];
  PPock 11 23337925407708917343269873493319607638879341485914224746228038546474382183428298476287118961279 757365997246626901084550661354181271462616814438263522809276760906247346152165584047925334025 6897919755847805513645151737984023004623973277287144363693804702458126385027187033197814470983 [(4982806528470961888578867896009647265488138691022009860168845631273, 1%nat, 1544932906874187226335270444874106587439945228422486172506814978878081376339160418186044016734)];
  PPock 18 8948962207650232551656602815159153422162609644098354511344597187200057010413418528378981730643524959857451398370029280583094215613882043973354392115544169 3507907423198200185316835980945783391380457026570913767347557698614765916824335492024248834667922207832427359043093132575658841225585147596497330649217668 5184999847082882125613622627225696990666485447083291422568093299674661400223814128876194462076483797043495143896397136432021074035538270674710885857360667 [(23337925407708917343269873493319607638879341485914224746228038546474382183428298476287118961279, 1%nat, 1292946270945767083970095477769758357818358131178426759396540903159236642421220703698001782539145775243325596557630992273467978429516639603360599898507743)]].
Lemma prime_n_BrainPoolP512r1 : prime 8948962207650232551656602815159153422162609644098354511344597187200057010413418528378981730643524959857451398370029280583094215613882043973354392115544169.
Proof. apply (chain_prime chain_BrainPoolP512r1); vm_cast_no_check (eq_refl true). Qed.
Definition job_BrainPoolP512r1 : ecjob := ec_job 18 8948962207650232551656602815159153422162609644098354511344597187200057010413552439917934304191956942765446530386427345937963894309923928536070534607816947 7023653155555006010565251641227285435019194730636478525236637254143158823241447822580839628071919365562287495359842551583616790871501975170371635489756607 6294860557973063227666421306476379324074715770622746227136910445450301914281276098027990968407983962691151853678563877834221834027439718238065725844264138 3245789008328967059274849584342077916531909009637501918328323668736179176583263496463525128488282611559800773506973771797764811498834995234341530862286627 6792059140424575174435640431269195087843153390102521881468023012732047482579853077545647446272866794936371522410774532686582484617946013928874296844351522 6592244555240112873324748381429610341312712940326266331327445066687010545415256461097707483288650216992613090185042957716318301180159234788504307628509330 8948962207650232551656602815159153422162609644098354511344597187200057010413418528378981730643524959857451398370029280583094215613882043973354392115544169 5580725682644820685860988123626160774663971954629116795534855657812086242112856031718585979417031260739216423167319797149141623989320108758480499363775429 5866297773453594445682418288939733433262776379320519915813050801125815369600714709076401041471440662149669492098109223412064522330271226818197121930797032 2982987402550077517218867605053051140720869881366118170448199062400019003471184146639311434730652314255148843462142448645987964769974642845356844869272316.
Lemma order_BrainPoolP512r1 : job_ok job_BrainPoolP512r1 8948962207650232551656602815159153422162609644098354511344597187200057010413418528378981730643524959857451398370029280583094215613882043973354392115544169.
Proof. apply job_check_ok; [exact prime_n_BrainPoolP512r1|vm_cast_no_check (eq_refl true)]. Qed.

(** BrainPoolP512t1 *)
Definition job_BrainPoolP512t1 : ecjob := ec_job 18 8948962207650232551656602815159153422162609644098354511344597187200057010413552439917934304191956942765446530386427345937963894309923928536070534607816947 7023653155555006010565251641227285435019194730636478525236637254143158823241447822580839628071919365562287495359842551583616790871501975170371635489756607 8948962207650232551656602815159153422162609644098354511344597187200057010413552439917934304191956942765446530386427345937963894309923928536070534607816944 6532815740455945129522030162820444801309011444717674409730083343052139800841847092116476221316466234404847931899409316558007222582458822004777353814164030 5240454105373391383446315535930423532243726242869439206480578543706358506399554673205583372921814351137736817888782671966171301927338369930113338349467098 4783098043208509222858478731459039446855297686825168822962919559100076900387655035060042118755576220187973470126780576052258118403094460341772613532037938 8948962207650232551656602815159153422162609644098354511344597187200057010413418528378981730643524959857451398370029280583094215613882043973354392115544169 5464581336712572168246386261981249727170049794444773715743775064910192964531308370998717152203750862905610512059094427779174006791950747157661292218604872 6841215385726809914537303246098733403744583302215057369580133405683510469520541924912214144763282659635501085367685903644703290372558226556642796519685485 2982987402550077517218867605053051140720869881366118170448199062400019003471184146639311434730652314255148843462142448645987964769974642845356844869272316.
Lemma order_BrainPoolP512t1 : job_ok job_BrainPoolP512t1 8948962207650232551656602815159153422162609644098354511344597187200057010413418528378981730643524959857451398370029280583094215613882043973354392115544169.
Proof. apply job_check_ok; [exact prime_n_BrainPoolP512r1|vm_cast_no_check (eq_refl true)]. Qed.
