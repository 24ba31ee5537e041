(** Orders of the generators of built-in curves, checked by evaluation.  Generated by tools/gen_orders.py. *)
From Coq Require Import ZArith List Znumtheory.
From Verif Require Import Proofs.EcCheck Proofs.PrimeChain.
Import ListNotations.
Local Open Scope Z_scope.

(** SECP_256k1 *)
Definition chain_SECP_256k1 : list pcert := [
  PPock 1 3 1 2 [(2, 1%nat, 1)];
  PPock 1 19 7 4 [(3, 2%nat, 16)];
  PPock 1 7 1 3 [(3, 1%nat, 1); (2, 1%nat, 3)];
  PPock 1 120233 43384 119339 [(19, 1%nat, 69698); (2, 2%nat, 60116); (7, 1%nat, 38513)];
  PPock 1 4051 1024 3524 [(3, 4%nat, 1084)];
  PPock 1 29 16 4 [(7, 1%nat, 2); (2, 1%nat, 14)];
  PPock 1 59 4 4 [(29, 1%nat, 20)];
  PPock 3 174723607534414371449 172441656714752553521 9990611592858781905 [(120233, 1%nat, 14283963398578376782); (4051, 1%nat, 19784841406807820082); (59, 1%nat, 49382158209948603354)];
  PPock 1 5 1 2 [(2, 2%nat, 2)];
  PPock 1 11 1 4 [(5, 1%nat, 4)];
  PPock 1 2861 620 1248 [(11, 1%nat, 1361); (5, 1%nat, 420); (2, 1%nat, 1430)];
  PPock 1 85831 9461 81845 [(2861, 1%nat, 38061)];
  PPock 1 16699 10975 3655 [(11, 2%nat, 8096); (3, 1%nat, 4107)];
  PPock 3 107361793816595537 33799246273735531 91939655826969011 [(85831, 1%nat, 89382073196192802); (16699, 1%nat, 96656339378510944)];
  PPock 1 631 587 609 [(3, 2%nat, 616); (5, 1%nat, 467)];
  PPock 9 115792089237316195423570985008687907852837564279074904382605163141518161494337 39853732154920377955962021603492849233594839484584883256589314837123701542387 28991664249318299955348405032366046629282352176569988393346601462961448624679 [(174723607534414371449, 1%nat, 82825258999207434266669200773575514537865192807825383256844795767869923999078); (107361793816595537, 1%nat, 75882924931766611973272472284568680993272073599073922898565096152986752117873); (631, 1%nat, 40019855020773282479098657611062657269521396140980508697912699204515769854455)]].
Lemma prime_n_SECP_256k1 : prime 115792089237316195423570985008687907852837564279074904382605163141518161494337.
Proof. apply (chain_prime chain_SECP_256k1); vm_cast_no_check (eq_refl true). Qed.
Definition job_SECP_256k1 : ecjob := ec_job 9 115792089237316195423570985008687907853269984665640564039457584007908834671663 4951762409950397330802868224 0 7 55066263022277343669578718895168534326250603453777594175500187360389116729240 32670510020758816978083085130507043184471273380659243275938904335757337482424 115792089237316195423570985008687907852837564279074904382605163141518161494337 5343427222869484438465054990678626807301628413915728402507325337581661228554 113866597201623862619853251319956892000834656122447750427312408763635218373268 77194726158210796949047323339125271902179989777093709359638389338605889781109.
Lemma order_SECP_256k1 : job_ok job_SECP_256k1 115792089237316195423570985008687907852837564279074904382605163141518161494337.
Proof. apply job_check_ok; [exact prime_n_SECP_256k1|vm_cast_no_check (eq_refl true)]. Qed.

(** SECP_256r1 *)
Definition chain_SECP_256r1 : list pcert := [
  PPock 1 3 1 2 [(2, 1%nat, 1)];
  PPock 1 337 295 199 [(2, 4%nat, 168); (3, 1%nat, 69)];
  PPock 1 5 1 2 [(2, 2%nat, 2)];
  PPock 1 31 1 9 [(5, 1%nat, 29); (3, 1%nat, 22)];
  PPock 1 104471 36274 1024 [(337, 1%nat, 27776); (31, 1%nat, 55488)];
  PPock 2 3969899 1063336 2100184 [(104471, 1%nat, 2243650)];
  PPock 2 1002328039319 152013515296 221842812587 [(3969899, 1%nat, 718861591819)];
  PPock 1 7 1 3 [(3, 1%nat, 1); (2, 1%nat, 3)];
  PPock 1 29 16 4 [(7, 1%nat, 2); (2, 1%nat, 14)];
  PPock 1 17 16 9 [(2, 3%nat, 8)];
  PPock 2 311245691 63662776 40051180 [(29, 2%nat, 134145418); (17, 1%nat, 301386726); (7, 1%nat, 309986499)];
  PPock 2 622491383 56470326 4 [(311245691, 1%nat, 207497128)];
  PPock 1 19 7 4 [(3, 2%nat, 16)];
  PPock 1 229 60 203 [(19, 1%nat, 212)];
  PPock 2 9350987 281342 89550 [(229, 1%nat, 1732635); (17, 1%nat, 7777718); (2, 1%nat, 4675493)];
  PPock 2 187019741 17470386 1048576 [(9350987, 1%nat, 44930397)];
  PPock 1 37 10 16 [(3, 2%nat, 3)];
  PPock 1 9547 2585 1125 [(37, 1%nat, 1990); (3, 1%nat, 8457); (2, 1%nat, 4773)];
  PPock 1 38189 28259 16 [(9547, 1%nat, 2546)];
  PPock 1 11 1 4 [(5, 1%nat, 4)];
  PPock 1 727 350 64 [(11, 2%nat, 511)];
  PPock 1 17449 8151 8727 [(727, 1%nat, 5817)];
  PPock 1 13 1 8 [(2, 2%nat, 6)];
  PPock 1 131 45 4 [(13, 1%nat, 110); (5, 1%nat, 63)];
  PPock 1 3407 2216 1185 [(131, 1%nat, 141)];
  PPock 9 115792089210356248762697446949407573529996955224135760342422259061068512044369 38749884061265778184728500461938529378450327658872678040635163497452676820055 73795264482707685910329931655122618530893527040152917634658520837686823465612 [(1002328039319, 1%nat, 9631013060085677371482002832704039550345574303883859918124457045788451041694); (622491383, 1%nat, 60741489996517933421745308637649787681612632387296668283116932572444781126976); (187019741, 1%nat, 114025522815333200738312806721751663041946323078811714253015182300303606333062); (38189, 1%nat, 86375698398929671398905049453757463238372739462223426780256964299451458877361); (17449, 1%nat, 14294993194911531117600535403298896471182800846467195527916466315331382137287); (3407, 1%nat, 96588588503865265634289120766735463908218978570261744063153824457149325863949)]].
Lemma prime_n_SECP_256r1 : prime 115792089210356248762697446949407573529996955224135760342422259061068512044369.
Proof. apply (chain_prime chain_SECP_256r1); vm_cast_no_check (eq_refl true). Qed.
Definition job_SECP_256r1 : ecjob := ec_job 9 115792089210356248762697446949407573530086143415290314195533631308867097853951 36185027883291317736472102840790250465851164349685116531445170580649672704000 115792089210356248762697446949407573530086143415290314195533631308867097853948 41058363725152142129326129780047268409114441015993725554835256314039467401291 48439561293906451759052585252797914202762949526041747995844080717082404635286 36134250956749795798585127919587881956611106672985015071877198253568414405109 115792089210356248762697446949407573529996955224135760342422259061068512044369 7516002456080760339661452742367255252298174181066100626181108747234773443606 37066654034885735624806322356510097805546238708352495744090097178857610306956 77194726140237499175131631299605049020057428943526876130355754205911398569301.
Lemma order_SECP_256r1 : job_ok job_SECP_256r1 115792089210356248762697446949407573529996955224135760342422259061068512044369.
Proof. apply job_check_ok; [exact prime_n_SECP_256r1|vm_cast_no_check (eq_refl true)]. Qed.

(** SWP256CCAO01 *)
Definition chain_SWP256CCAO01 : list pcert := [
  PPock 1 13 1 8 [(2, 2%nat, 6)];
  PPock 1 53 44 16 [(13, 1%nat, 46)];
  PPock 1 107 86 4 [(53, 1%nat, 36)];
  PPock 1 3853 113 335 [(107, 1%nat, 1765)];
  PPock 1 46237 20991 4096 [(3853, 1%nat, 38130)];
  PPock 1 3 1 2 [(2, 1%nat, 1)];
  PPock 1 19 7 4 [(3, 2%nat, 16)];
  PPock 1 229 60 203 [(19, 1%nat, 212)];
  PPock 1 5 1 2 [(2, 2%nat, 2)];
  PPock 1 11 1 4 [(5, 1%nat, 4)];
  PPock 3 462432277355093 374718955644655 381992423290218 [(46237, 1%nat, 304155598369518); (229, 1%nat, 217935668056020); (11, 1%nat, 240262913394095)];
  PPock 3 94336184580438973 58088983034022675 46824443670618291 [(462432277355093, 1%nat, 48628457984797276)];
  PPock 1 1013 837 528 [(11, 1%nat, 360); (2, 2%nat, 506)];
  PPock 1 31 1 9 [(5, 1%nat, 29); (3, 1%nat, 22)];
  PPock 2 1080954067 846156125 817610271 [(1013, 1%nat, 1046207902); (31, 1%nat, 206979500); (3, 1%nat, 510148461)];
  PPock 2 428057810533 47933289222 45195321982 [(1080954067, 1%nat, 271581939113)];
  PPock 1 7 1 3 [(3, 1%nat, 1); (2, 1%nat, 3)];
  PPock 1 547 414 534 [(7, 1%nat, 253); (3, 1%nat, 533); (2, 1%nat, 273)];
  PPock 1 51419 33225 50035 [(547, 1%nat, 7388)];
  PPock 2 100369889 29469865 84933714 [(51419, 1%nat, 68568999)];
  PPock 2 2408877337 2030197457 16777216 [(100369889, 1%nat, 1301895152)];
  PPock 1 23 9 4 [(11, 1%nat, 8)];
  PPock 1 277 236 64 [(23, 1%nat, 60); (2, 1%nat, 138)];
  PPock 1 59833 19305 27149 [(277, 1%nat, 18273)];
  PPock 2 358999 16941 64 [(59833, 1%nat, 28492)];
  PPock 9 30137851004622548192843085757609948207959822349226712027780832625665148140763 28890934219798715548243190534535483345696918279985127498208884851708460891727 16839516878295479368079020504045744697527318601199327417127456761664196358221 [(94336184580438973, 1%nat, 8550701881170717002441967334429617360948073730261036694690813252860116914934); (428057810533, 1%nat, 22713755855345128505072112773943555080661413395861819289256224700335941561444); (2408877337, 1%nat, 9639878434663081160237866739814653779265546122308255950564811683740214337682); (358999, 1%nat, 20228150811157714423877231017053487604339172817753259684866865302444784778819)];
  PPock 9 60275702009245096385686171515219896415919644698453424055561665251330296281527 43468075077365724435950038186581919058167995491130959327633190874434140774007 4 [(30137851004622548192843085757609948207959822349226712027780832625665148140763, 1%nat, 20091900669748365461895390505073298805306548232817808018520555083776765427176)]].
Lemma prime_n_SWP256CCAO01 : prime 60275702009245096385686171515219896415919644698453424055561665251330296281527.
Proof. apply (chain_prime chain_SWP256CCAO01); vm_cast_no_check (eq_refl true). Qed.
Definition job_SWP256CCAO01 : ecjob := ec_job 9 60275702009245096385686171515219896416297121499402250955537857683885541941187 52946345663654641021030491909741867288909440513467252925093260357735829038548 54492052985589574080443685629857027481671841726313362585597978545915325572248 45183185393608134601425506985501881231876135519103376096391853873370470098074 29905514254078361236418469080477708234343499662916671209092838329800180225085 2940593737975541915790390447892157254280677083040126061230851964063234001314 60275702009245096385686171515219896415919644698453424055561665251330296281527 58218869159547220210696556935854931572406852710017843835304607875232190546229 26607762047183670610319909654173958411783687014612740248477995951530730896323 40183801339496730923790781010146597610864747666268167303691905122590361294125.
Lemma order_SWP256CCAO01 : job_ok job_SWP256CCAO01 60275702009245096385686171515219896415919644698453424055561665251330296281527.
Proof. apply job_check_ok; [exact prime_n_SWP256CCAO01|vm_cast_no_check (eq_refl true)]. Qed.

(** SWP256SM2 *)
Definition chain_SWP256SM2 : list pcert := [
  PPock 1 13 1 8 [(2, 2%nat, 6)];
  PPock 1 3 1 2 [(2, 1%nat, 1)];
  PPock 1 84163 73688 48002 [(13, 2%nat, 16770); (3, 1%nat, 14201); (2, 1%nat, 42081)];
  PPock 2 2566129871 1817737363 1051192517 [(84163, 1%nat, 384878019)];
  PPock 1 5 1 2 [(2, 2%nat, 2)];
  PPock 1 11 1 4 [(5, 1%nat, 4)];
  PPock 1 3037 2162 1324 [(11, 1%nat, 693); (2, 1%nat, 1518); (3, 1%nat, 248)];
  PPock 1 12149 7466 16 [(3037, 1%nat, 810)];
  PPock 1 17 16 9 [(2, 3%nat, 8)];
  PPock 1 103 100 64 [(17, 1%nat, 18)];
  PPock 2 107615843 59922323 20849929 [(12149, 1%nat, 57099990); (103, 1%nat, 38404992)];
  PPock 1 181 48 119 [(3, 2%nat, 104); (2, 1%nat, 90)];
  PPock 1 7 1 3 [(3, 1%nat, 1); (2, 1%nat, 3)];
  PPock 1 71 45 4 [(7, 1%nat, 49); (5, 1%nat, 67)];
  PPock 2 17965699 16823837 14602441 [(181, 1%nat, 10351335); (71, 1%nat, 8429962)];
  PPock 5 18120927127286907576013935251791662753637 14011760526129247080976336493119611642692 17253299411978215096960541972692059402316 [(2566129871, 1%nat, 15475331517521606410906810706943351643563); (107615843, 1%nat, 4106198446511394350653817554998431947966); (17965699, 1%nat, 5324932796555041898975073673138019650613)];
  PPock 7 125197554539772723432468576818475380947471091418362477724521 79233098043140718731359349134862092333718191948815879586811 43705879977610153852046537724007259923016710225098337664489 [(18120927127286907576013935251791662753637, 1%nat, 113660731571207093131579154571942112473636592621561183211505)];
  PPock 9 115792089210356248756420345214020892766061623724957744567843809356293439045923 19926625986384200944100201705826003924183745836175204562948411818977459608605 26557920684321106406491020282831445287915141300924165215768893342908498698298 [(125197554539772723432468576818475380947471091418362477724521, 1%nat, 59373569277660848476084151545954521777439633813469367869240062331103347591079)]].
Lemma prime_n_SWP256SM2 : prime 115792089210356248756420345214020892766061623724957744567843809356293439045923.
Proof. apply (chain_prime chain_SWP256SM2); vm_cast_no_check (eq_refl true). Qed.
Definition job_SWP256SM2 : ecjob := ec_job 9 115792089210356248756420345214020892766250353991924191454421193933289684991999 28948022312699042189678895085058365249331671215745717717477679526927610675200 115792089210356248756420345214020892766250353991924191454421193933289684991996 18505919022281880113072981827955639221458448578012075254857346196103069175443 22963146547237050559479531362550074578802567295341616970375194840604139615431 85132369209828568825618990617112496413088388631904505083283536607588877201568 115792089210356248756420345214020892766061623724957744567843809356293439045923 88923355533788471073218028974727728179950791195575934029703596331198502575498 46033972373353659916256338562944731088428992533793462528642703675269096962661 38597363070118749585473448404673630922083451330641397151473731311096561664000.
Lemma order_SWP256SM2 : job_ok job_SWP256SM2 115792089210356248756420345214020892766061623724957744567843809356293439045923.
Proof. apply job_check_ok; [exact prime_n_SWP256SM2|vm_cast_no_check (eq_refl true)]. Qed.
