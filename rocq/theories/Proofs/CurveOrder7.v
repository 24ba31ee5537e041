(** Orders of the generators of built-in curves, checked by evaluation.  Generated by tools/gen_orders.py. *)
From Coq Require Import ZArith List Znumtheory.
From Verif Require Import Proofs.EcCheck Proofs.PrimeChain.
Import ListNotations.
Local Open Scope Z_scope.

(** GOST2001_test *)
Definition chain_GOST2001_test : list pcert := [
  PPock 1 3 1 2 [(2, 1%nat, 1)];
  PPock 1 7 1 3 [(3, 1%nat, 1); (2, 1%nat, 3)];
  PPock 1 5 1 2 [(2, 2%nat, 2)];
  PPock 2 198897931 14504195 176093566 [(3, 5%nat, 116667027); (7, 1%nat, 32810143); (5, 1%nat, 49205854); (2, 1%nat, 99448965)];
  PPock 2 13127263447 6450176581 8863412471 [(198897931, 1%nat, 12547304295)];
  PPock 2 30691541939087 18067971129419 10098045082183 [(13127263447, 1%nat, 668136856335)];
  PPock 3 10264479286108256281 10230605503216774106 4742378245632468411 [(30691541939087, 1%nat, 8816454455903124511)];
  PPock 1 71 45 4 [(7, 1%nat, 49); (5, 1%nat, 67)];
  PPock 1 1279 338 1228 [(71, 1%nat, 1156)];
  PPock 1 30697 9146 16654 [(1279, 1%nat, 6883)];
  PPock 2 1841821 1785723 1586701 [(30697, 1%nat, 782973)];
  PPock 2 11050927 7683286 64 [(1841821, 1%nat, 8770577)];
  PPock 2 198916687 2808286 262144 [(11050927, 1%nat, 67807247)];
  PPock 2 1193500123 854409593 64 [(198916687, 1%nat, 94722232)];
  PPock 7 296379762614331847955351590674378453956751398521495687 136371255669993507361498729470250381346626412284024687 207466196768851067315519818226046381355063868209414730 [(10264479286108256281, 1%nat, 201765172724696247027772286659275649097673966965975657); (1193500123, 1%nat, 158651565047351081673170125680812667030750605633128758)];
  PPock 9 57896044618658097711785492504343953927082934583725450622380973592137631069619 23979103628609234515718447255690855941768121636297320614745235873497318253071 46939583716118629112173754770983704696063772951968061403725054904617485235446 [(296379762614331847955351590674378453956751398521495687, 1%nat, 54470367955736231426979521199636705512397715568445245376278105703530280567445)]].
Lemma prime_n_GOST2001_test : prime 57896044618658097711785492504343953927082934583725450622380973592137631069619.
Proof. apply (chain_prime chain_GOST2001_test); vm_cast_no_check (eq_refl true). Qed.
Definition job_GOST2001_test : ecjob := ec_job 9 57896044618658097711785492504343953926634992332820282019728792003956564821041 1236230100484096 7 43308876546767276905765904595650931995942111794451039583252968842033849580414 2 4018974056539037503335449422937059775635739389905545080690979365213431566280 57896044618658097711785492504343953927082934583725450622380973592137631069619 34822265607810006685927888132158156342680093526067810514031746821669418633899 12765074021830986913406326872652136929146175506761501983972436048303740812719 38597363079105398474523661669562635951089994888546854679819194669304376547361.
Lemma order_GOST2001_test : job_ok job_GOST2001_test 57896044618658097711785492504343953927082934583725450622380973592137631069619.
Proof. apply job_check_ok; [exact prime_n_GOST2001_test|vm_cast_no_check (eq_refl true)]. Qed.

(** GOST2001_CryptoPro_A *)
Definition chain_GOST2001_CryptoPro_A : list pcert := [
  PPock 1 13 1 8 [(2, 2%nat, 6)];
  PPock 1 313 48 274 [(13, 1%nat, 11); (2, 2%nat, 156)];
  PPock 1 3 1 2 [(2, 1%nat, 1)];
  PPock 1 7 1 3 [(3, 1%nat, 1); (2, 1%nat, 3)];
  PPock 1 65731 9205 25939 [(313, 1%nat, 56192); (7, 1%nat, 18520)];
  PPock 2 591973387 433200616 229140786 [(65731, 1%nat, 182166532)];
  PPock 2 91314262838299 9684355919896 85555188684397 [(591973387, 1%nat, 21778215185153)];
  PPock 1 5 1 2 [(2, 2%nat, 2)];
  PPock 1 101 87 16 [(5, 2%nat, 72)];
  PPock 1 19 7 4 [(3, 2%nat, 16)];
  PPock 2 43043171 10400596 5489775 [(101, 1%nat, 32902665); (19, 1%nat, 11096462); (5, 1%nat, 39043626)];
  PPock 1 1873 536 295 [(2, 3%nat, 936); (3, 2%nat, 1210)];
  PPock 1 53 44 16 [(13, 1%nat, 46)];
  PPock 1 1697 1512 619 [(53, 1%nat, 886); (2, 1%nat, 848)];
  PPock 7 50791017540450015071456350284045037169936855765408748581 2991232569872847108239339867666358285377816669205207572 49611612390295970558996432969499299983245918162447069016 [(91314262838299, 1%nat, 14932937865205459923345687700484942729103748242283129636); (43043171, 1%nat, 24403326189987706919044405169281161738895689489700276079); (1873, 1%nat, 2751985389587303832244372690290667740839684813809195249); (1697, 1%nat, 46421167534730223919371545056396219630176332899330698376)];
  PPock 9 115792089237316195423570985008687907853073762908499243225378155805079068850323 81559590350275188431925187059665727647077119445998135477507778133714820574316 62448968944855155741335557903313920635798473480962658257111181635224588674985 [(50791017540450015071456350284045037169936855765408748581, 1%nat, 95942782845218168071121580154439858459303856030010190829138617425420981635801)]].
Lemma prime_n_GOST2001_CryptoPro_A : prime 115792089237316195423570985008687907853073762908499243225378155805079068850323.
Proof. apply (chain_prime chain_GOST2001_CryptoPro_A); vm_cast_no_check (eq_refl true). Qed.
Definition job_GOST2001_CryptoPro_A : ecjob := ec_job 9 115792089237316195423570985008687907853269984665640564039457584007913129639319 102190425309184 115792089237316195423570985008687907853269984665640564039457584007913129639316 166 1 64033881142927202683649881450433473985931760268884941288852745803908878638612 115792089237316195423570985008687907853073762908499243225378155805079068850323 86442155597421800506427569717786609478499627194478407986725813716796546492240 78334273580064143438239427671470042428207258830274166205323946846730677456896 38597363079105398474523661669562635951089994888546854679819194669304376546440.
Lemma order_GOST2001_CryptoPro_A : job_ok job_GOST2001_CryptoPro_A 115792089237316195423570985008687907853073762908499243225378155805079068850323.
Proof. apply job_check_ok; [exact prime_n_GOST2001_CryptoPro_A|vm_cast_no_check (eq_refl true)]. Qed.

(** GOST2001_CryptoPro_B *)
Definition chain_GOST2001_CryptoPro_B : list pcert := [
  PPock 1 5 1 2 [(2, 2%nat, 2)];
  PPock 1 11 1 4 [(5, 1%nat, 4)];
  PPock 1 3 1 2 [(2, 1%nat, 1)];
  PPock 1 2707 1025 2348 [(11, 1%nat, 452); (3, 1%nat, 2264); (2, 1%nat, 1353)];
  PPock 2 498089 128804 290931 [(2707, 1%nat, 48744)];
  PPock 2 36858587 24528509 22802651 [(498089, 1%nat, 6573041)];
  PPock 2 434415306383 367793158332 243904137821 [(36858587, 1%nat, 18906146143)];
  PPock 1 73 64 52 [(3, 1%nat, 21); (2, 3%nat, 36)];
  PPock 1 31 1 9 [(5, 1%nat, 29); (3, 1%nat, 22)];
  PPock 2 1407587 235993 1156603 [(73, 1%nat, 1201869); (31, 1%nat, 1036507)];
  PPock 1 7 1 3 [(3, 1%nat, 1); (2, 1%nat, 3)];
  PPock 1 43 16 9 [(7, 1%nat, 14); (3, 1%nat, 16)];
  PPock 1 173 57 16 [(43, 1%nat, 150)];
  PPock 1 2423 76 1846 [(173, 1%nat, 1790)];
  PPock 1 29077 317 4096 [(2423, 1%nat, 26748)];
  PPock 1 23 9 4 [(11, 1%nat, 8)];
  PPock 6 3179810722570773882487420182434062983086216957 2332270319056634940178559761171520203886353540 1936927266134096257178243824497095623620034196 [(434415306383, 1%nat, 2735321266448532755245222384371173933381523782); (1407587, 1%nat, 51725781962191652747319340136031660307858559); (29077, 1%nat, 1092126753288884309636335284059895589969082741); (23, 1%nat, 1259215704199071061528022098299914492549447875)];
  PPock 7 611535319489737880361765400867656717933201264526640746251 578486771007208723976392072561222467894709727401939156375 102070960561596000711964607195731167090150462580405320357 [(3179810722570773882487420182434062983086216957, 1%nat, 471413934487769432374251828280751092679839132827820112756)];
  PPock 9 57896044618658097711785492504343953927102133160255826820068844496087732066703 35422649079496643242108489454017034923198928130708178902046875998517571539160 6484520580242038634724069123180901968769242559107437376875236564900946138373 [(611535319489737880361765400867656717933201264526640746251, 1%nat, 35234120789041054753050344290272704651564156926587979179037569654741169670773)]].
Lemma prime_n_GOST2001_CryptoPro_B : prime 57896044618658097711785492504343953927102133160255826820068844496087732066703.
Proof. apply (chain_prime chain_GOST2001_CryptoPro_B); vm_cast_no_check (eq_refl true). Qed.
Definition job_GOST2001_CryptoPro_B : ecjob := ec_job 9 57896044618658097711785492504343953926634992332820282019728792003956564823193 11167586058240000 57896044618658097711785492504343953926634992332820282019728792003956564823190 28091019353058090096996979000309560759124368558014865957655842872397301267595 1 28792665814854611296992347458380284135028636778229113005756334730996303888124 57896044618658097711785492504343953927102133160255826820068844496087732066703 30584464518363725570745043518321546455390558962026256716367240132545972865087 42008287493095682992707326455068436266335036856386775771196763635752255032658 19298681539552699237261830834781317975544997444273427339909597334652188274398.
Lemma order_GOST2001_CryptoPro_B : job_ok job_GOST2001_CryptoPro_B 57896044618658097711785492504343953927102133160255826820068844496087732066703.
Proof. apply job_check_ok; [exact prime_n_GOST2001_CryptoPro_B|vm_cast_no_check (eq_refl true)]. Qed.

(** GOST2001_CryptoPro_C *)
Definition chain_GOST2001_CryptoPro_C : list pcert := [
  PPock 1 5 1 2 [(2, 2%nat, 2)];
  PPock 1 3 1 2 [(2, 1%nat, 1)];
  PPock 1 31 1 9 [(5, 1%nat, 29); (3, 1%nat, 22)];
  PPock 1 1861 1547 374 [(31, 1%nat, 449); (5, 1%nat, 1802)];
  PPock 1 41 1 38 [(2, 3%nat, 20)];
  PPock 2 66326628077 76957941 6270762464 [(1861, 1%nat, 40410636978); (41, 1%nat, 25889692710); (2, 2%nat, 33163314038)];
  PPock 1 13 1 8 [(2, 2%nat, 6)];
  PPock 1 53 44 16 [(13, 1%nat, 46)];
  PPock 1 6679 354 3509 [(53, 1%nat, 3778); (3, 1%nat, 4138)];
  PPock 2 1669751 364173 1657370 [(6679, 1%nat, 861037)];
  PPock 2 3339503 1878543 4 [(1669751, 1%nat, 1113168)];
  PPock 2 320592289 197402327 200578268 [(3339503, 1%nat, 169400826)];
  PPock 1 73 64 52 [(3, 1%nat, 21); (2, 3%nat, 36)];
  PPock 1 1753 1392 1006 [(73, 1%nat, 1296)];
  PPock 1 70121 35923 43092 [(1753, 1%nat, 53417)];
  PPock 2 69840517 34737250 24171623 [(70121, 1%nat, 39032072)];
  PPock 6 260862815097120313262827914162129492639311 88309581790660770053015533288813956840695 225387700360931234470771873969569572604079 [(66326628077, 1%nat, 109057837468879902502751419702356974208337); (320592289, 1%nat, 88460096388118824604543554161472907325400); (69840517, 1%nat, 136872377041035735675852174750979328946678)];
  PPock 9 70390085352083305199547718019018437840920882647164081035322601458352298396601 4364093414532164311772714760750108425676559088431991977892400147216408839125 3740460112824567856128414796720285449402053155980600289307938488346523909113 [(260862815097120313262827914162129492639311, 1%nat, 39585179798880746203555743323571199667568456810309233095247725320295213046260)]].
Lemma prime_n_GOST2001_CryptoPro_C : prime 70390085352083305199547718019018437840920882647164081035322601458352298396601.
Proof. apply (chain_prime chain_GOST2001_CryptoPro_C); vm_cast_no_check (eq_refl true). Qed.
Definition job_GOST2001_CryptoPro_C : ecjob := ec_job 9 70390085352083305199547718019018437841079516630045180471284346843705633502619 32966348056363624539242631094747381116135139286134915191792258765372628273372 70390085352083305199547718019018437841079516630045180471284346843705633502616 32858 0 29818893917731240733471273240314769927240550812383695689146495261604565990247 70390085352083305199547718019018437840920882647164081035322601458352298396601 657189899129346074288621560004881289641617625248631432693212469275829393751 49635152293801595913006250045122757185201288219744174075316607225249118063103 23463361784027768399849239339672812613693172210015060157094782281235211167540.
Lemma order_GOST2001_CryptoPro_C : job_ok job_GOST2001_CryptoPro_C 70390085352083305199547718019018437840920882647164081035322601458352298396601.
Proof. apply job_check_ok; [exact prime_n_GOST2001_CryptoPro_C|vm_cast_no_check (eq_refl true)]. Qed.

(** FRP256v1 *)
Definition chain_FRP256v1 : list pcert := [
  PPock 1 17 16 9 [(2, 3%nat, 8)];
  PPock 1 3 1 2 [(2, 1%nat, 1)];
  PPock 1 307 102 275 [(17, 1%nat, 142); (3, 1%nat, 210)];
  PPock 1 5 1 2 [(2, 2%nat, 2)];
  PPock 1 11 1 4 [(5, 1%nat, 4)];
  PPock 2 5315399 538879 4145518 [(307, 1%nat, 150846); (11, 1%nat, 85242); (2, 1%nat, 2657699)];
  PPock 1 127 16 28 [(3, 2%nat, 6); (2, 1%nat, 63)];
  PPock 1 509 337 16 [(127, 1%nat, 34)];
  PPock 1 1019 340 4 [(509, 1%nat, 340)];
  PPock 1 2039 1454 4 [(1019, 1%nat, 680)];
  PPock 1 4079 365 4 [(2039, 1%nat, 1360)];
  PPock 1 181 48 119 [(3, 2%nat, 104); (2, 1%nat, 90)];
  PPock 1 1087 282 64 [(181, 1%nat, 1018)];
  PPock 4 548794774797769816735663 367889325486212136984597 463595076356462564400678 [(5315399, 1%nat, 392085532683222324603827); (4079, 1%nat, 405466767157045890019893); (1087, 1%nat, 275019248045065907354973)];
  PPock 5 1720805198043061735464389957585107660393 731892690799812638961747338106589050942 1202074940597289010751111877187266371032 [(548794774797769816735663, 1%nat, 1470144048420718558873948599752682602060)];
  PPock 7 160847769765829662053086933326768494988741892623088564991 17322301609167292749244551842836059677416594918036931867 133314722030314324150405802053168784648735813247464414253 [(1720805198043061735464389957585107660393, 1%nat, 98412961777216792508454000380068898757500520055406108187)];
  PPock 9 109454571331697278617670725030735128146004546811402412653072203207726079563233 42990976208048044964628105397985624334555380346425847021641844959892517632426 6803956495416690491040579688423794078362318521657147424943835810181945648532 [(160847769765829662053086933326768494988741892623088564991, 1%nat, 63746573263514868914495674313613696119533021939469957039728097752003017066026)]].
Lemma prime_n_FRP256v1 : prime 109454571331697278617670725030735128146004546811402412653072203207726079563233.
Proof. apply (chain_prime chain_FRP256v1); vm_cast_no_check (eq_refl true). Qed.
Definition job_FRP256v1 : ecjob := ec_job 9 109454571331697278617670725030735128145969349647868738157201323556196022393859 70434674232098781649767067753567898548553888956492757259677315201429927633832 109454571331697278617670725030735128145969349647868738157201323556196022393856 107744541122042688792155207242782455150382764043089114141096634497567301547839 82638672503301278923015998535776227331280144783487139112686874194432446389503 43992510890276411535679659957604584722077886330284298232193264058442323471611 109454571331697278617670725030735128146004546811402412653072203207726079563233 43939906196770194399623072306828281011712007107356141237354460872739839134736 68560790881956497889632052621305042716075373254076462084988827450286383419416 36484857110565759539223575010245042715323116549289579385733774518732007464620.
Lemma order_FRP256v1 : job_ok job_FRP256v1 109454571331697278617670725030735128146004546811402412653072203207726079563233.
Proof. apply job_check_ok; [exact prime_n_FRP256v1|vm_cast_no_check (eq_refl true)]. Qed.

(** BrainPoolP256r1 *)
Definition chain_BrainPoolP256r1 : list pcert := [
  PPock 1 5 1 2 [(2, 2%nat, 2)];
  PPock 1 11 1 4 [(5, 1%nat, 4)];
  PPock 1 23 9 4 [(11, 1%nat, 8)];
  PPock 1 47 28 4 [(23, 1%nat, 16)];
  PPock 1 659 621 568 [(47, 1%nat, 308)];
  PPock 1 1319 672 4 [(659, 1%nat, 440)];
  PPock 1 50123 41382 16703 [(1319, 1%nat, 44226)];
  PPock 2 41802583 37549963 13658779 [(50123, 1%nat, 20082567)];
  PPock 1 3 1 2 [(2, 1%nat, 1)];
  PPock 1 7 1 3 [(3, 1%nat, 1); (2, 1%nat, 3)];
  PPock 1 43 16 9 [(7, 1%nat, 14); (3, 1%nat, 16)];
  PPock 1 173 57 16 [(43, 1%nat, 150)];
  PPock 1 61 1 32 [(2, 2%nat, 30); (3, 1%nat, 4)];
  PPock 1 21107 237 4 [(173, 1%nat, 13322); (61, 1%nat, 17377)];
  PPock 3 1674656872585139 1088028126080087 1318965092912843 [(41802583, 1%nat, 902297332204876); (21107, 1%nat, 831720173139467)];
  PPock 4 190455129210693390224369129 76629888845531480289380390 37629468049426663660937827 [(1674656872585139, 1%nat, 143247471639072917272623193)];
  PPock 6 114430077720284863765762092766225391679591020381 97593757244884239718599827872502393261244557861 107972223486331334895858625313247482326361346610 [(190455129210693390224369129, 1%nat, 99463431654920979124871871238534949953466966039)];
  PPock 9 4271386466502519123378319257166758282929862876911918307708639947947974242171 2690284062000848571411660664504256775158904127240855996598734973325223394406 3857113039832290054245130548565264413284219145046729770236118055172338740336 [(114430077720284863765762092766225391679591020381, 1%nat, 3960258871456578813736377485796096493871051875319989041101422325388252919155)];
  PPock 9 76884956397045344220809746629001649092737531784414529538755519063063536359079 39614111336528313104540435036016588280423723368935174966951698277070045981088 262144 [(4271386466502519123378319257166758282929862876911918307708639947947974242171, 1%nat, 38464621891880789334548455770910073027184586584156785820789302245581967105298)]].
Lemma prime_n_BrainPoolP256r1 : prime 76884956397045344220809746629001649092737531784414529538755519063063536359079.
Proof. apply (chain_prime chain_BrainPoolP256r1); vm_cast_no_check (eq_refl true). Qed.
Definition job_BrainPoolP256r1 : ecjob := ec_job 9 76884956397045344220809746629001649093037950200943055203735601445031516197751 21015010072775838219617736139044212721976784553738295073305857847515365885585 56698187605326110043627228396178346077120614539475214109386828188763884139993 17577232497321838841075697789794520262950426058923084567046852300633325438902 63243729749562333355292243550312970334778175571054726587095381623627144114786 38218615093753523893122277964030810387585405539772602581557831887485717997975 76884956397045344220809746629001649092737531784414529538755519063063536359079 25837082158136474004301215074816987560659597586452071823893707654568178657109 18690505336949817952412523897850476982608054269965571793098154617337958726131 25628318799015114740269915543000549697679316733647685067911867148343838732584.
Lemma order_BrainPoolP256r1 : job_ok job_BrainPoolP256r1 76884956397045344220809746629001649092737531784414529538755519063063536359079.
Proof. apply job_check_ok; [exact prime_n_BrainPoolP256r1|vm_cast_no_check (eq_refl true)]. Qed.

(** BrainPoolP256t1 *)
Definition job_BrainPoolP256t1 : ecjob := ec_job 9 76884956397045344220809746629001649093037950200943055203735601445031516197751 21015010072775838219617736139044212721976784553738295073305857847515365885585 76884956397045344220809746629001649093037950200943055203735601445031516197748 46214326585032579593829631435610129746736367449296220983687490401182983727876 74138526386500101787937404544159543470173440588427591213843535686338908194292 20625154686056605250529482107801269759951443923312408063441227608803066104254 76884956397045344220809746629001649092737531784414529538755519063063536359079 5155351710230472891561346818008263604489957607758200760443642590194396108632 25051556536068910708002782920692395565523695987431883672553937249722348203190 25628318799015114740269915543000549697679316733647685067911867148343838732584.
Lemma order_BrainPoolP256t1 : job_ok job_BrainPoolP256t1 76884956397045344220809746629001649092737531784414529538755519063063536359079.
Proof. apply job_check_ok; [exact prime_n_BrainPoolP256r1|vm_cast_no_check (eq_refl true)]. Qed.
