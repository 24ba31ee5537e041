(** Orders of the generators of built-in curves, checked by evaluation.  Generated by tools/gen_orders.py. *)
From Coq Require Import ZArith List Znumtheory.
From Verif Require Import Proofs.EcCheck Proofs.PrimeChain.
Import ListNotations.
Local Open Scope Z_scope.

(** SECP_192r1 *)
Definition chain_SECP_192r1 : list pcert := [
  PPock 1 3 1 2 [(2, 1%nat, 1)];
  PPock 1 7 1 3 [(3, 1%nat, 1); (2, 1%nat, 3)];
  PPock 1 29 16 4 [(7, 1%nat, 2); (2, 1%nat, 14)];
  PPock 1 59 4 4 [(29, 1%nat, 20)];
  PPock 1 54163 12400 32164 [(59, 1%nat, 39497); (3, 2%nat, 355)];
  PPock 1 19 7 4 [(3, 2%nat, 16)];
  PPock 1 191 121 69 [(19, 1%nat, 59)];
  PPock 1 383 368 4 [(191, 1%nat, 128)];
  PPock 2 2281887191 221814954 343391057 [(54163, 1%nat, 737792630); (383, 1%nat, 1928937342)];
  PPock 1 5 1 2 [(2, 2%nat, 2)];
  PPock 1 11 1 4 [(5, 1%nat, 4)];
  PPock 1 23 9 4 [(11, 1%nat, 8)];
  PPock 1 47 28 4 [(23, 1%nat, 16)];
  PPock 1 941 538 302 [(47, 1%nat, 619)];
  PPock 1 37 10 16 [(3, 2%nat, 3)];
  PPock 1 223 17 64 [(37, 1%nat, 177)];
  PPock 2 419687 380207 4 [(941, 1%nat, 57230); (223, 1%nat, 285503)];
  PPock 2 236703469 158431897 58548947 [(419687, 1%nat, 167456270)];
  PPock 4 770644407274555705037628392413 340975695775264284703150119499 582882852983927082035935185604 [(2281887191, 1%nat, 37609825317353896190122215769); (236703469, 1%nat, 746958469234527652575491643194)];
  PEc (ec_job 7 6277101735386680763835789423176059013767194773182842284081 3931627091062306435173478613350032829090431587839894323426 1631181935782497693566568228218054595468329186589753980094 3262363871564995387133136456436109190936658373179507960188 3602219204041448406882558056172253238610984805725486728502 1105926944755093122986126334717792962117083730859428967919 770644407274555705037628392413 3824130472135320110628855964654185178857567718893018657953 4290800467564138961858746676662234804052032469470245801611 2092367245128893587945263141058686337922398257727614094694) 770644407274555705037628392413].
Lemma prime_n_SECP_192r1 : prime 6277101735386680763835789423176059013767194773182842284081.
Proof. apply (chain_prime chain_SECP_192r1); vm_cast_no_check (eq_refl true). Qed.
Definition job_SECP_192r1 : ecjob := ec_job 7 6277101735386680763835789423207666416083908700390324961279 23384026197294446693794258523916987117557046575104 6277101735386680763835789423207666416083908700390324961276 2455155546008943817740293915197451784769108058161191238065 602046282375688656758213480587526111916698976636884684818 174050332293622031404857552280219410364023488927386650641 6277101735386680763835789423176059013767194773182842284081 4130763952948215023889497447371852905889696188077515543565 4132667710685521950347358162942242882735741259200740455130 2092367245128893587945263141069222138694636233463441653760.
Lemma order_SECP_192r1 : job_ok job_SECP_192r1 6277101735386680763835789423176059013767194773182842284081.
Proof. apply job_check_ok; [exact prime_n_SECP_192r1|vm_cast_no_check (eq_refl true)]. Qed.

(** SECP_224r1 *)
Definition chain_SECP_224r1 : list pcert := [
  PPock 1 5 1 2 [(2, 2%nat, 2)];
  PPock 1 101 87 16 [(5, 2%nat, 72)];
  PPock 1 3 1 2 [(2, 1%nat, 1)];
  PPock 1 10909 330 9403 [(101, 1%nat, 10287); (3, 1%nat, 4183)];
  PPock 2 11105363 640480 1972648 [(10909, 1%nat, 9699678)];
  PPock 2 821796863 484897646 334418063 [(11105363, 1%nat, 419309132)];
  PPock 3 432621809776543 120721131194301 424512317759445 [(821796863, 1%nat, 33078999059648)];
  PPock 4 136401162692544977256234449 124275759031370260216142383 74682394745479600194196357 [(432621809776543, 1%nat, 57154127414484158576128025)];
  PPock 4 34646440928557194402992574983797 6448815772185233169640717663167 17964283499622987307244987545889 [(136401162692544977256234449, 1%nat, 5037174433048681144301386838262)];
  PPock 6 375503554633724504423937478103159147573209 374102198777906548032718134822411789749122 288527218590949970904317369194545595987599 [(34646440928557194402992574983797, 1%nat, 317998910004635305370450171003472370664966)];
  PPock 7 50520606258875818707470860153287666700917696099933389351507 2297125501027706481630103194666318544106425704820246587976 10084247389854643911241542541906780573951372338829511760589 [(375503554633724504423937478103159147573209, 1%nat, 24137879162838580483631743182491659235880674722528516014804)];
  PPock 8 26959946667150639794667015087019625940457807714424391721682722368061 2541784343171536386630741755796323724642251487557530891440010871981 15234485764574659475519518639469693083392193569330144316598560593322 [(50520606258875818707470860153287666700917696099933389351507, 1%nat, 8477602444834504741936850830720541060080598355690493385227106327903)]].
Lemma prime_n_SECP_224r1 : prime 26959946667150639794667015087019625940457807714424391721682722368061.
Proof. apply (chain_prime chain_SECP_224r1); vm_cast_no_check (eq_refl true). Qed.
Definition job_SECP_224r1 : ecjob := ec_job 8 26959946667150639794667015087019630673557916260026308143510066298881 26959946667150639794667015086339065939795267495613823266244368793600 26959946667150639794667015087019630673557916260026308143510066298878 18958286285566608000408668544493926415504680968679321075787234672564 19277929113566293071110308034699488026831934219452440156649784352033 19926808758034470970197974370888749184205991990603949537637343198772 26959946667150639794667015087019625940457807714424391721682722368061 2937336732761859731363617691414589656702488988288912025564163359851 15142467140455233972695441772918300818672608134859264396411672522876 17973297778100426529778010058013087115705277506684205429006710865921.
Lemma order_SECP_224r1 : job_ok job_SECP_224r1 26959946667150639794667015087019625940457807714424391721682722368061.
Proof. apply job_check_ok; [exact prime_n_SECP_224r1|vm_cast_no_check (eq_refl true)]. Qed.

(** WAPI *)
Definition chain_WAPI : list pcert := [
  PPock 1 17 16 9 [(2, 3%nat, 8)];
  PPock 1 4013 233 2123 [(17, 1%nat, 1824); (2, 2%nat, 2006)];
  PPock 1 5 1 2 [(2, 2%nat, 2)];
  PPock 1 281 59 220 [(2, 3%nat, 140); (5, 1%nat, 162)];
  PPock 1 3 1 2 [(2, 1%nat, 1)];
  PPock 3 192283749496117 38491667681679 37357681385836 [(4013, 1%nat, 135017177958510); (281, 1%nat, 21876050389416); (3, 3%nat, 168414689538107)];
  PPock 3 937483266343308355841 208699278540739655085 837068443353797124319 [(192283749496117, 1%nat, 336783786969556282235)];
  PPock 5 4876265171542608317919179609906854573319 3105843320866720352098183984434299943049 4829955991956456924802400024295996136365 [(937483266343308355841, 1%nat, 961109521708222129088027821578894774982)];
  PPock 5 68267712401596516450868514538695964026467 56837180041542028773297837778136518495993 16384 [(4876265171542608317919179609906854573319, 1%nat, 19755675059266867148481207802475588442256)];
  PPock 7 2325895157586273662210713744378802123332912854701334799163 1298891982986752533785536731380180236085430461895224768985 2142006825213773040989797521383800001390336181120834173964 [(68267712401596516450868514538695964026467, 1%nat, 2004970893946072981262734195306405129953857090493469990919)];
  PPock 7 4651790315172547324421427488757604246665825709402669598327 308881751468245700628953584668064399594250727193124581441 4 [(2325895157586273662210713744378802123332912854701334799163, 1%nat, 1550596771724182441473809162919201415555275236467556532776)]].
Lemma prime_n_WAPI : prime 4651790315172547324421427488757604246665825709402669598327.
Proof. apply (chain_prime chain_WAPI); vm_cast_no_check (eq_refl true). Qed.
Definition job_WAPI : ecjob := ec_job 7 4651790315172547324421427488787163462617155070424625206559 4119674507846296715775335092010836679065550238544595824727 4598862935839736669809089888524020718089890230495750986117 596595254059354726415294216491069121288378220989917368769 1834968487600647824514410140269064362459199060214757221952 66972603455005182691778320537844117786519722001186891730 4651790315172547324421427488757604246665825709402669598327 3596798538582445872127777491337852020236702811105262655443 3653523432082325148879964702634190834830469222635567070154 1550596771724182441473809162929054487539051690141541735520.
Lemma order_WAPI : job_ok job_WAPI 4651790315172547324421427488757604246665825709402669598327.
Proof. apply job_check_ok; [exact prime_n_WAPI|vm_cast_no_check (eq_refl true)]. Qed.

(** BrainPoolP160r1 *)
Definition chain_BrainPoolP160r1 : list pcert := [
  PPock 1 3 1 2 [(2, 1%nat, 1)];
  PPock 1 7 1 3 [(3, 1%nat, 1); (2, 1%nat, 3)];
  PPock 2 3244753 386612 1191273 [(3, 3%nat, 1352893); (2, 4%nat, 1622376); (7, 1%nat, 2623978)];
  PPock 1 17 16 9 [(2, 3%nat, 8)];
  PPock 1 5 1 2 [(2, 2%nat, 2)];
  PPock 1 11 1 4 [(5, 1%nat, 4)];
  PPock 2 2745161 401479 1938094 [(17, 1%nat, 429720); (11, 1%nat, 2472999); (2, 2%nat, 1372580); (5, 1%nat, 1609479)];
  PPock 1 13 1 8 [(2, 2%nat, 6)];
  PPock 2 216841 175665 201937 [(13, 1%nat, 18517); (2, 3%nat, 108420); (5, 1%nat, 3855)];
  PPock 1 1933 34 581 [(7, 1%nat, 1220); (2, 2%nat, 966); (3, 1%nat, 841)];
  PPock 1 41 1 38 [(2, 3%nat, 20)];
  PPock 1 83 23 4 [(41, 1%nat, 28)];
  PPock 6 1332297598440044874827085038830181364212942568457 498134939153844904151033158982619220026055325708 429084862820823901426724019047708521125649378615 [(3244753, 1%nat, 1241281343034313039524641661388880617957159694979); (2745161, 1%nat, 731979038748094464857084112792614040205353854492); (216841, 1%nat, 1139931869691177310789851064576213309801164185641); (1933, 1%nat, 281892609399955506771906442342710169868602857271); (83, 1%nat, 1322215987145749085054903816369813984039652633519); (2, 2%nat, 666148799220022437413542519415090682106471284228)]].
Lemma prime_n_BrainPoolP160r1 : prime 1332297598440044874827085038830181364212942568457.
Proof. apply (chain_prime chain_BrainPoolP160r1); vm_cast_no_check (eq_refl true). Qed.
Definition job_BrainPoolP160r1 : ecjob := ec_job 6 1332297598440044874827085558802491743757193798159 411318177499459110726905076958532124260541657972 297190522446607939568481567949428902921613329152 173245649450172891208247283053495198538671808088 1089473557631435284577962539738532515920566082499 127912481829969033206777085249718746721365418785 1332297598440044874827085038830181364212942568457 1286691032949784252572074580986355478850925464183 792383957162611414013337276862376961026327794300 888198398960029916551390372534994495838129198773.
Lemma order_BrainPoolP160r1 : job_ok job_BrainPoolP160r1 1332297598440044874827085038830181364212942568457.
Proof. apply job_check_ok; [exact prime_n_BrainPoolP160r1|vm_cast_no_check (eq_refl true)]. Qed.

(** BrainPoolP160t1 *)
Definition job_BrainPoolP160t1 : ecjob := ec_job 6 1332297598440044874827085558802491743757193798159 411318177499459110726905076958532124260541657972 1332297598440044874827085558802491743757193798156 698401795719474705027684479972917623041381757824 1013918819608769552616977083272059630517089149816 992437653978037713070561264469524978381944905901 1332297598440044874827085038830181364212942568457 1165018682214106262843660693117806039762579693948 1181899467045412566664546503527375287483484377474 888198398960029916551390372534994495838129198773.
Lemma order_BrainPoolP160t1 : job_ok job_BrainPoolP160t1 1332297598440044874827085038830181364212942568457.
Proof. apply job_check_ok; [exact prime_n_BrainPoolP160r1|vm_cast_no_check (eq_refl true)]. Qed.

(** BrainPoolP192r1 *)
Definition chain_BrainPoolP192r1 : list pcert := [
  PPock 1 3 1 2 [(2, 1%nat, 1)];
  PPock 1 7 1 3 [(3, 1%nat, 1); (2, 1%nat, 3)];
  PPock 1 43 16 9 [(7, 1%nat, 14); (3, 1%nat, 16)];
  PPock 1 173 57 16 [(43, 1%nat, 150)];
  PPock 1 2423 76 1846 [(173, 1%nat, 1790)];
  PPock 1 29077 317 4096 [(2423, 1%nat, 26748)];
  PPock 2 3140317 2282838 333296 [(29077, 1%nat, 678264)];
  PPock 1 97 22 8 [(2, 4%nat, 48)];
  PPock 1 971 525 53 [(97, 1%nat, 915)];
  PPock 1 5827 5460 64 [(971, 1%nat, 185)];
  PPock 1 29 16 4 [(7, 1%nat, 2); (2, 1%nat, 14)];
  PPock 1 19 7 4 [(3, 2%nat, 16)];
  PPock 1 1103 4 9 [(29, 1%nat, 454); (19, 1%nat, 335)];
  PPock 1 41 1 38 [(2, 3%nat, 20)];
  PPock 1 83 23 4 [(41, 1%nat, 28)];
  PPock 4 107647262337333555283688982427 36936975372927372649901715608 105265097784309043536647855945 [(3140317, 1%nat, 7019758979886002813455680262); (5827, 1%nat, 26923082836462574925046167412); (1103, 1%nat, 67394519703231553672282038575); (83, 1%nat, 13199166005515067093643925983)];
  PPock 7 4781668983906166242955001894269038308119863659119834868929 757963177468237033647947211497504643934145766119569970432 2195845487618187902274002306384320949306044030170123428530 [(107647262337333555283688982427, 1%nat, 4478057413032784837061119183369576392291417886491016103530)]].
Lemma prime_n_BrainPoolP192r1 : prime 4781668983906166242955001894269038308119863659119834868929.
Proof. apply (chain_prime chain_BrainPoolP192r1); vm_cast_no_check (eq_refl true). Qed.
Definition job_BrainPoolP192r1 : ecjob := ec_job 7 4781668983906166242955001894344923773259119655253013193367 3599854933595137186873449769533240950450550735314185671039 2613009377683017747869391908421543348309181741502784219375 1731160591135112004210203499537764623771657619977468323273 4723188856514392935399337699153522173525168621081341681622 507884783101387741749746950209061101579755255809652136847 4781668983906166242955001894269038308119863659119834868929 2699226134439708809561819457437736514411995804615239549459 458678538641023651717428167425721700001840096043621136654 3187779322604110828636667929563282515506079770168675462245.
Lemma order_BrainPoolP192r1 : job_ok job_BrainPoolP192r1 4781668983906166242955001894269038308119863659119834868929.
Proof. apply job_check_ok; [exact prime_n_BrainPoolP192r1|vm_cast_no_check (eq_refl true)]. Qed.

(** BrainPoolP192t1 *)
Definition job_BrainPoolP192t1 : ecjob := ec_job 7 4781668983906166242955001894344923773259119655253013193367 3599854933595137186873449769533240950450550735314185671039 4781668983906166242955001894344923773259119655253013193364 486321888066950067394881041525590797530120076120499518329 1444558712667280506885530592978306040338136913835324440873 232764348904945951820395534722141373682806994795615748553 4781668983906166242955001894269038308119863659119834868929 3498486472473370450630491779306933489657469563850567456614 4634633437694288255531400925336862192330333757285121348504 3187779322604110828636667929563282515506079770168675462245.
Lemma order_BrainPoolP192t1 : job_ok job_BrainPoolP192t1 4781668983906166242955001894269038308119863659119834868929.
Proof. apply job_check_ok; [exact prime_n_BrainPoolP192r1|vm_cast_no_check (eq_refl true)]. Qed.

(** BrainPoolP224r1 *)
Definition chain_BrainPoolP224r1 : list pcert := [
  PPock 1 5 1 2 [(2, 2%nat, 2)];
  PPock 1 11 1 4 [(5, 1%nat, 4)];
  PPock 1 23 9 4 [(11, 1%nat, 8)];
  PPock 1 461 196 16 [(23, 1%nat, 325); (5, 1%nat, 53)];
  PPock 1 17 16 9 [(2, 3%nat, 8)];
  PPock 1 239 99 132 [(17, 1%nat, 104)];
  PPock 2 440717 12933 16 [(461, 1%nat, 281402); (239, 1%nat, 347368)];
  PPock 2 37901663 31498279 6834292 [(440717, 1%nat, 484088)];
  PPock 2 73831150867459 49497041463431 4118841982052 [(37901663, 1%nat, 3836139878154)];
  PPock 4 806539990497420485986591867 691160189609141448618400791 462511416528561202051327880 [(73831150867459, 1%nat, 616725679168254642123050750)];
  PPock 4 8065399904974204859865918671 4963370767667539549415678777 1024 [(806539990497420485986591867, 1%nat, 4028757919297965477411030734)];
  PPock 4 983978788406852992903642077863 75570638055684338481600911108 311601424667814270538946059338 [(8065399904974204859865918671, 1%nat, 199820388037180580125990385846)];
  PPock 5 1161088527226980043552900118830014153077 811066356256591159925450329531401553977 75917342635865292035214518781793812652 [(983978788406852992903642077863, 1%nat, 63096624889699973447458865342469037660)];
  PPock 6 1990826783253337021526517590177438885463180347771 1778562334343115971201731888421286532024478786244 1233660948516993478322275016361980190508791659041 [(1161088527226980043552900118830014153077, 1%nat, 999962418204241694512050055459312207732138095526)];
  PPock 8 21889810146873172242343485545193568027521720946368744885738498041 14914180225771393045583013067967904533933708486506392521109381395 1502791011954672045857704224318580255266476798294404892939723084 [(1990826783253337021526517590177438885463180347771, 1%nat, 4570524836473014505347621766294821278016365129017214562890389288)];
  PPock 8 22721622932454352787552537995910923612567546342330757191396560966559 20212576869974345157994336821377762852127787948296668710717575835267 18908926290514224261346969768774039019670151104875245041063573968249 [(21889810146873172242343485545193568027521720946368744885738498041, 1%nat, 14889993326587944366051950466505902541274299753946287563323473160872)]].
Lemma prime_n_BrainPoolP224r1 : prime 22721622932454352787552537995910923612567546342330757191396560966559.
Proof. apply (chain_prime chain_BrainPoolP224r1); vm_cast_no_check (eq_refl true). Qed.
Definition job_BrainPoolP224r1 : ecjob := ec_job 8 22721622932454352787552537995910928073340732145944992304435472941311 3820888906891502237033392970827761499168561078762262584805184548069 11020725272625742361946480833014344015343456918668456061589001510723 3949606626053374030787926457695139766118442946052311411513528958987 1428364927244201726431498207475486496993067267318520844137448783997 9337555360448823227812410753177468631215558779020518084752618816205 22721622932454352787552537995910923612567546342330757191396560966559 18748273125925192173286492337606029298396459905249363968972438210565 7413814472252281955574081229092560681890647253076700050509202342979 15147748621636235191701691997273952048893821430629994869623648627541.
Lemma order_BrainPoolP224r1 : job_ok job_BrainPoolP224r1 22721622932454352787552537995910923612567546342330757191396560966559.
Proof. apply job_check_ok; [exact prime_n_BrainPoolP224r1|vm_cast_no_check (eq_refl true)]. Qed.

(** BrainPoolP224t1 *)
Definition job_BrainPoolP224t1 : ecjob := ec_job 8 22721622932454352787552537995910928073340732145944992304435472941311 3820888906891502237033392970827761499168561078762262584805184548069 22721622932454352787552537995910928073340732145944992304435472941308 7919603849831377222129533323916957959225380016698795812027476510861 11236281700362234642592534287151572422539408672654616227474732012928 364032462118593425315751587028126980694396626774408344039871404876 22721622932454352787552537995910923612567546342330757191396560966559 21135224569857489316556863012259960067969041738749319379851125924510 20341025986177441031608894405726727405354786207961206182184565390097 15147748621636235191701691997273952048893821430629994869623648627541.
Lemma order_BrainPoolP224t1 : job_ok job_BrainPoolP224t1 22721622932454352787552537995910923612567546342330757191396560966559.
Proof. apply job_check_ok; [exact prime_n_BrainPoolP224r1|vm_cast_no_check (eq_refl true)]. Qed.
