{"SECP_192r1": [["pock", 3, 2, [[2, 1]]], ["pock", 7, 3, [[3, 1], [2, 1]]], ["pock", 29, 2, [[7, 1], [2, 1]]], ["pock", 59, 2, [[29, 1]]], ["pock", 54163, 2, [[59, 1], [3, 2]]], ["pock", 19, 2, [[3, 2]]], ["pock", 191, 2, [[19, 1]]], ["pock", 383, 2, [[191, 1]]], ["pock", 2281887191, 2, [[54163, 1], [383, 1]]], ["pock", 5, 2, [[2, 2]]], ["pock", 11, 2, [[5, 1]]], ["pock", 23, 2, [[11, 1]]], ["pock", 47, 2, [[23, 1]]], ["pock", 941, 2, [[47, 1]]], ["pock", 37, 2, [[3, 2]]], ["pock", 223, 2, [[37, 1]]], ["pock", 419687, 2, [[941, 1], [223, 1]]], ["pock", 236703469, 2, [[419687, 1]]], ["pock", 770644407274555705037628392413, 2, [[2281887191, 1], [236703469, 1]]], ["ec", 6277101735386680763835789423176059013767194773182842284081, 1631181935782497693566568228218054595468329186589753980094, 3262363871564995387133136456436109190936658373179507960188, 3602219204041448406882558056172253238610984805725486728502, 1105926944755093122986126334717792962117083730859428967919, 770644407274555705037628392413]], "SECP_224r1": [["pock", 5, 2, [[2, 2]]], ["pock", 101, 2, [[5, 2]]], ["pock", 3, 2, [[2, 1]]], ["pock", 10909, 2, [[101, 1], [3, 1]]], ["pock", 11105363, 2, [[10909, 1]]], ["pock", 821796863, 2, [[11105363, 1]]], ["pock", 432621809776543, 2, [[821796863, 1]]], ["pock", 136401162692544977256234449, 2, [[432621809776543, 1]]], ["pock", 34646440928557194402992574983797, 2, [[136401162692544977256234449, 1]]], ["pock", 375503554633724504423937478103159147573209, 2, [[34646440928557194402992574983797, 1]]], ["pock", 50520606258875818707470860153287666700917696099933389351507, 2, [[375503554633724504423937478103159147573209, 1]]], ["pock", 26959946667150639794667015087019625940457807714424391721682722368061, 2, [[50520606258875818707470860153287666700917696099933389351507, 1]]]], "SECP_256k1": [["pock", 3, 2, [[2, 1]]], ["pock", 19, 2, [[3, 2]]], ["pock", 7, 3, [[3, 1], [2, 1]]], ["pock", 120233, 3, [[19, 1], [2, 2], [7, 1]]], ["pock", 4051, 3, [[3, 4]]], ["pock", 29, 2, [[7, 1], [2, 1]]], ["pock", 59, 2, [[29, 1]]], ["pock", 174723607534414371449, 2, [[120233, 1], [4051, 1], [59, 1]]], ["pock", 5, 2, [[2, 2]]], ["pock", 11, 2, [[5, 1]]], ["pock", 2861, 2, [[11, 1], [5, 1], [2, 1]]], ["pock", 85831, 2, [[2861, 1]]], ["pock", 16699, 3, [[11, 2], [3, 1]]], ["pock", 107361793816595537, 2, [[85831, 1], [16699, 1]]], ["pock", 631, 2, [[3, 2], [5, 1]]], ["pock", 115792089237316195423570985008687907852837564279074904382605163141518161494337, 2, [[174723607534414371449, 1], [107361793816595537, 1], [631, 1]]]], "SECP_256r1": [["pock", 3, 2, [[2, 1]]], ["pock", 337, 10, [[2, 4], [3, 1]]], ["pock", 5, 2, [[2, 2]]], ["pock", 31, 3, [[5, 1], [3, 1]]], ["pock", 104471, 2, [[337, 1], [31, 1]]], ["pock", 3969899, 2, [[104471, 1]]], ["pock", 1002328039319, 2, [[3969899, 1]]], ["pock", 7, 3, [[3, 1], [2, 1]]], ["pock", 29, 2, [[7, 1], [2, 1]]], ["pock", 17, 3, [[2, 3]]], ["pock", 311245691, 2, [[29, 2], [17, 1], [7, 1]]], ["pock", 622491383, 2, [[311245691, 1]]], ["pock", 19, 2, [[3, 2]]], ["pock", 229, 2, [[19, 1]]], ["pock", 9350987, 2, [[229, 1], [17, 1], [2, 1]]], ["pock", 187019741, 2, [[9350987, 1]]], ["pock", 37, 2, [[3, 2]]], ["pock", 9547, 2, [[37, 1], [3, 1], [2, 1]]], ["pock", 38189, 2, [[9547, 1]]], ["pock", 11, 2, [[5, 1]]], ["pock", 727, 2, [[11, 2]]], ["pock", 17449, 2, [[727, 1]]], ["pock", 13, 2, [[2, 2]]], ["pock", 131, 2, [[13, 1], [5, 1]]], ["pock", 3407, 2, [[131, 1]]], ["pock", 115792089210356248762697446949407573529996955224135760342422259061068512044369, 2, [[1002328039319, 1], [622491383, 1], [187019741, 1], [38189, 1], [17449, 1], [3407, 1]]]], "WAPI": [["pock", 17, 3, [[2, 3]]], ["pock", 4013, 2, [[17, 1], [2, 2]]], ["pock", 5, 2, [[2, 2]]], ["pock", 281, 3, [[2, 3], [5, 1]]], ["pock", 3, 2, [[2, 1]]], ["pock", 192283749496117, 2, [[4013, 1], [281, 1], [3, 3]]], ["pock", 937483266343308355841, 2, [[192283749496117, 1]]], ["pock", 4876265171542608317919179609906854573319, 2, [[937483266343308355841, 1]]], ["pock", 68267712401596516450868514538695964026467, 2, [[4876265171542608317919179609906854573319, 1]]], ["pock", 2325895157586273662210713744378802123332912854701334799163, 2, [[68267712401596516450868514538695964026467, 1]]], ["pock", 4651790315172547324421427488757604246665825709402669598327, 2, [[2325895157586273662210713744378802123332912854701334799163, 1]]]], "SWP256CCAO01": [["pock", 13, 2, [[2, 2]]], ["pock", 53, 2, [[13, 1]]], ["pock", 107, 2, [[53, 1]]], ["pock", 3853, 2, [[107, 1]]], ["pock", 46237, 2, [[3853, 1]]], ["pock", 3, 2, [[2, 1]]], ["pock", 19, 2, [[3, 2]]], ["pock", 229, 2, [[19, 1]]], ["pock", 5, 2, [[2, 2]]], ["pock", 11, 2, [[5, 1]]], ["pock", 462432277355093, 2, [[46237, 1], [229, 1], [11, 1]]], ["pock", 94336184580438973, 2, [[462432277355093, 1]]], ["pock", 1013, 3, [[11, 1], [2, 2]]], ["pock", 31, 3, [[5, 1], [3, 1]]], ["pock", 1080954067, 2, [[1013, 1], [31, 1], [3, 1]]], ["pock", 428057810533, 2, [[1080954067, 1]]], ["pock", 7, 3, [[3, 1], [2, 1]]], ["pock", 547, 2, [[7, 1], [3, 1], [2, 1]]], ["pock", 51419, 2, [[547, 1]]], ["pock", 100369889, 2, [[51419, 1]]], ["pock", 2408877337, 2, [[100369889, 1]]], ["pock", 23, 2, [[11, 1]]], ["pock", 277, 2, [[23, 1], [2, 1]]], ["pock", 59833, 2, [[277, 1]]], ["pock", 358999, 2, [[59833, 1]]], ["pock", 30137851004622548192843085757609948207959822349226712027780832625665148140763, 2, [[94336184580438973, 1], [428057810533, 1], [2408877337, 1], [358999, 1]]], ["pock", 60275702009245096385686171515219896415919644698453424055561665251330296281527, 2, [[30137851004622548192843085757609948207959822349226712027780832625665148140763, 1]]]], "SWP256SM2": [["pock", 13, 2, [[2, 2]]], ["pock", 3, 2, [[2, 1]]], ["pock", 84163, 2, [[13, 2], [3, 1], [2, 1]]], ["pock", 2566129871, 2, [[84163, 1]]], ["pock", 5, 2, [[2, 2]]], ["pock", 11, 2, [[5, 1]]], ["pock", 3037, 2, [[11, 1], [2, 1], [3, 1]]], ["pock", 12149, 2, [[3037, 1]]], ["pock", 17, 3, [[2, 3]]], ["pock", 103, 2, [[17, 1]]], ["pock", 107615843, 2, [[12149, 1], [103, 1]]], ["pock", 181, 2, [[3, 2], [2, 1]]], ["pock", 7, 3, [[3, 1], [2, 1]]], ["pock", 71, 2, [[7, 1], [5, 1]]], ["pock", 17965699, 2, [[181, 1], [71, 1]]], ["pock", 18120927127286907576013935251791662753637, 2, [[2566129871, 1], [107615843, 1], [17965699, 1]]], ["pock", 125197554539772723432468576818475380947471091418362477724521, 2, [[18120927127286907576013935251791662753637, 1]]], ["pock", 115792089210356248756420345214020892766061623724957744567843809356293439045923, 2, [[125197554539772723432468576818475380947471091418362477724521, 1]]]], "GOST2001_test": [["pock", 3, 2, [[2, 1]]], ["pock", 7, 3, [[3, 1], [2, 1]]], ["pock", 5, 2, [[2, 2]]], ["pock", 198897931, 2, [[3, 5], [7, 1], [5, 1], [2, 1]]], ["pock", 13127263447, 2, [[198897931, 1]]], ["pock", 30691541939087, 2, [[13127263447, 1]]], ["pock", 10264479286108256281, 2, [[30691541939087, 1]]], ["pock", 71, 2, [[7, 1], [5, 1]]], ["pock", 1279, 2, [[71, 1]]], ["pock", 30697, 2, [[1279, 1]]], ["pock", 1841821, 2, [[30697, 1]]], ["pock", 11050927, 2, [[1841821, 1]]], ["pock", 198916687, 2, [[11050927, 1]]], ["pock", 1193500123, 2, [[198916687, 1]]], ["pock", 296379762614331847955351590674378453956751398521495687, 2, [[10264479286108256281, 1], [1193500123, 1]]], ["pock", 57896044618658097711785492504343953927082934583725450622380973592137631069619, 2, [[296379762614331847955351590674378453956751398521495687, 1]]]], "GOST2001_CryptoPro_A": [["pock", 13, 2, [[2, 2]]], ["pock", 313, 7, [[13, 1], [2, 2]]], ["pock", 3, 2, [[2, 1]]], ["pock", 7, 3, [[3, 1], [2, 1]]], ["pock", 65731, 2, [[313, 1], [7, 1]]], ["pock", 591973387, 2, [[65731, 1]]], ["pock", 91314262838299, 2, [[591973387, 1]]], ["pock", 5, 2, [[2, 2]]], ["pock", 101, 2, [[5, 2]]], ["pock", 19, 2, [[3, 2]]], ["pock", 43043171, 2, [[101, 1], [19, 1], [5, 1]]], ["pock", 1873, 10, [[2, 3], [3, 2]]], ["pock", 53, 2, [[13, 1]]], ["pock", 1697, 3, [[53, 1], [2, 1]]], ["pock", 50791017540450015071456350284045037169936855765408748581, 2, [[91314262838299, 1], [43043171, 1], [1873, 1], [1697, 1]]], ["pock", 115792089237316195423570985008687907853073762908499243225378155805079068850323, 2, [[50791017540450015071456350284045037169936855765408748581, 1]]]], "GOST2001_CryptoPro_B": [["pock", 5, 2, [[2, 2]]], ["pock", 11, 2, [[5, 1]]], ["pock", 3, 2, [[2, 1]]], ["pock", 2707, 2, [[11, 1], [3, 1], [2, 1]]], ["pock", 498089, 2, [[2707, 1]]], ["pock", 36858587, 2, [[498089, 1]]], ["pock", 434415306383, 2, [[36858587, 1]]], ["pock", 73, 5, [[3, 1], [2, 3]]], ["pock", 31, 3, [[5, 1], [3, 1]]], ["pock", 1407587, 2, [[73, 1], [31, 1]]], ["pock", 7, 3, [[3, 1], [2, 1]]], ["pock", 43, 3, [[7, 1], [3, 1]]], ["pock", 173, 2, [[43, 1]]], ["pock", 2423, 2, [[173, 1]]], ["pock", 29077, 2, [[2423, 1]]], ["pock", 23, 2, [[11, 1]]], ["pock", 3179810722570773882487420182434062983086216957, 2, [[434415306383, 1], [1407587, 1], [29077, 1], [23, 1]]], ["pock", 611535319489737880361765400867656717933201264526640746251, 2, [[3179810722570773882487420182434062983086216957, 1]]], ["pock", 57896044618658097711785492504343953927102133160255826820068844496087732066703, 2, [[611535319489737880361765400867656717933201264526640746251, 1]]]], "GOST2001_CryptoPro_C": [["pock", 5, 2, [[2, 2]]], ["pock", 3, 2, [[2, 1]]], ["pock", 31, 3, [[5, 1], [3, 1]]], ["pock", 1861, 2, [[31, 1], [5, 1]]], ["pock", 41, 3, [[2, 3]]], ["pock", 66326628077, 2, [[1861, 1], [41, 1], [2, 2]]], ["pock", 13, 2, [[2, 2]]], ["pock", 53, 2, [[13, 1]]], ["pock", 6679, 3, [[53, 1], [3, 1]]], ["pock", 1669751, 2, [[6679, 1]]], ["pock", 3339503, 2, [[1669751, 1]]], ["pock", 320592289, 2, [[3339503, 1]]], ["pock", 73, 5, [[3, 1], [2, 3]]], ["pock", 1753, 2, [[73, 1]]], ["pock", 70121, 2, [[1753, 1]]], ["pock", 69840517, 2, [[70121, 1]]], ["pock", 260862815097120313262827914162129492639311, 2, [[66326628077, 1], [320592289, 1], [69840517, 1]]], ["pock", 70390085352083305199547718019018437840920882647164081035322601458352298396601, 2, [[260862815097120313262827914162129492639311, 1]]]], "GOST2012_test": [["pock", 13, 2, [[2, 2]]], ["pock", 3, 2, [[2, 1]]], ["pock", 79, 2, [[13, 1], [3, 1]]], ["pock", 1423, 2, [[79, 1]]], ["pock", 5693, 2, [[1423, 1]]], ["pock", 182177, 2, [[5693, 1]]], ["pock", 19, 2, [[3, 2]]], ["pock", 457, 5, [[19, 1], [2, 1]]], ["pock", 13856943725161, 2, [[182177, 1], [457, 1]]], ["pock", 720921354245226187, 2, [[13856943725161, 1]]], ["pock", 90180425864066825008433790061457, 2, [[720921354245226187, 1]]], ["ec", 131171784297994391669270727548337621810539280492756891604059829, 92540115395115728977905420896634525737540023004357599073883784, 79662892427489508080783652012733493713206937174891168230491769, 18389344568067328101779115911124309956617124027855280355467672, 79510485798091882892865167736949918972434547440929008035183003, 90180425864066825008433790061457], ["pock", 32676574140279377636871671637183891668017920368635902783976800283386413, 2, [[131171784297994391669270727548337621810539280492756891604059829, 1]]], ["ec", 880133608765092323779105154829777404419776884283322966989004294547086364070704666321980645873660188751368957749636756399, 880133608765092323779105154829777404419776884283322966989004294547086364070704666321980645873660188751368957749636756396, 29211796596058694816993756746628684257463653894866074461685112656435641832435911935275910986806697987933027492052342362, 760704146678391306368118444884584685478154035671510768861994686741810316343160440683155698632342325196818454711598939482, 766800470737614576075613899683321001987464787164421517562824114284894292047257673760048029304645190105879636127904036977, 32676574140279377636871671637183891668017920368635902783976800283386413], ["pock", 24414906307143661061632376994978025198604610770019379104274979130736175739321347443771743116535333635962974887974923622508261, 2, [[880133608765092323779105154829777404419776884283322966989004294547086364070704666321980645873660188751368957749636756399, 1]]], ["ec", 3623986102229003635907788753683874306021320925534678605086546150450856166623969164898305032863068499961404079437936585455865192212970734808812618120619743, 3623986102229003635907788753683874306021320925534678605086546150450856166623969164898305032863068499961404079437936585455865192212970734808812618120619740, 3054811377904318458338921385078591813893370638461572429863655212338518964433435413039723867602441384810322517502388741905946592702914760449267724054111714, 2967036012969128940193730071095830405434682913892539299664270504218976672988928981059398307063432227031771319257985503883107264651862755292609200880866911, 674232385141005874086837553725791963989761698094322490355969422248402170014674719976688109211000370432308612324148335396407802225479235732631303570034782, 24414906307143661061632376994978025198604610770019379104274979130736175739321347443771743116535333635962974887974923622508261]], "GOST2012_tc26_A": [["pock", 5, 2, [[2, 2]]], ["pock", 11, 2, [[5, 1]]], ["pock", 3, 2, [[2, 1]]], ["pock", 199, 2, [[11, 1], [3, 1]]], ["pock", 797, 2, [[199, 1]]], ["pock", 234319, 2, [[797, 1]]], ["pock", 1862367413, 2, [[234319, 1]]], ["pock", 7, 3, [[3, 1], [2, 1]]], ["pock", 29, 2, [[7, 1], [2, 1]]], ["pock", 17, 3, [[2, 3]]], ["pock", 248473, 2, [[29, 1], [17, 1], [3, 1]]], ["pock", 2484731, 2, [[248473, 1]]], ["pock", 4794071398071855509, 2, [[1862367413, 1], [2484731, 1]]], ["pock", 2191024862917983979567253, 2, [[4794071398071855509, 1]]], ["pock", 523346702223548665483816512060289357746373, 2, [[2191024862917983979567253, 1]]], ["ec", 198044010970385664237906237168137906646888206604649217364549970843894559, 198044010970385664237906237168137906646888206604649217364549970843894556, 154167955885839860754464670535144590706618604506992733509754244900407350, 109057487862984144956670587064419593020485775118492811048470442696059196, 188471425609283539856023670318067769950323841372294309171493259063290987, 523346702223548665483816512060289357746373], ["pock", 2659996905859338126918446182385457656019111335144863285682205604819957136479606547069362565401, 2, [[198044010970385664237906237168137906646888206604649217364549970843894559, 1]]], ["ec", 168269685222720808467007974051700020069694652155478645994405010861132660398595497409617303178171605916112726157719250328273, 168269685222720808467007974051700020069694652155478645994405010861132660398595497409617303178171605916112726157719250328270, 16382975506422221601373621327302133960367460980233319951279564522638144176492128221362866053072562823057789957028095264571, 111511219950280770675232306849814480024446718864008156847912183199297853303021455528857683632561436775616098879281515068820, 37658329126786035376285048849283603662868141244789987572837325994516771805380370893938048792557723260235497572625931467215, 2659996905859338126918446182385457656019111335144863285682205604819957136479606547069362565401], ["pock", 670226906265728561606133045062571868338637423657183531885306867320456165265946593148371018658422771287384626147955975458528429197, 2, [[168269685222720808467007974051700020069694652155478645994405010861132660398595497409617303178171605916112726157719250328273, 1]]], ["ec", 13407807929942597099574024998205846127479365820592393377723561443721764030073449232318290585817636498049628612556596899500625279906416653993875474742293109, 7685122937844747833956503981555044012606959141942159455620435808970460562780405722966237985266263495425555828143696823810604719539875118901863486119346761, 654145981915632856112994321634747299244850821097308511172436724739719031829120737871395128238296830933827681243598916040194719724444527936617165832133471, 5198055814397912442065140106718719616519029797269503836396882298492367710301805335813086839894282816175620637167085367119801812782623849602893979625926733, 12861476114843794384281619461741125460335809715054171705788565045653198497725260853513496720149208385166666600831323832852013456567179960774945360823839952, 670226906265728561606133045062571868338637423657183531885306867320456165265946593148371018658422771287384626147955975458528429197]], "GOST2012_tc26_B": [["pock", 3, 2, [[2, 1]]], ["pock", 7, 3, [[3, 1], [2, 1]]], ["pock", 5, 2, [[2, 2]]], ["pock", 421, 2, [[7, 1], [5, 1]]], ["pock", 17683, 2, [[421, 1]]], ["pock", 1060981, 2, [[17683, 1]]], ["pock", 668418031, 2, [[1060981, 1]]], ["pock", 816806833883, 2, [[668418031, 1]]], ["pock", 37, 2, [[3, 2]]], ["pock", 23311, 3, [[37, 1], [3, 2]]], ["pock", 29, 2, [[7, 1], [2, 1]]], ["pock", 59, 2, [[29, 1]]], ["pock", 13, 2, [[2, 2]]], ["pock", 10739, 2, [[59, 1], [13, 1]]], ["pock", 500673659, 2, [[23311, 1], [10739, 1]]], ["pock", 4320186529910121307343909, 2, [[816806833883, 1], [500673659, 1]]], ["pock", 34561492239280970458751273, 2, [[4320186529910121307343909, 1]]], ["pock", 1597985155175394950130823858429, 2, [[34561492239280970458751273, 1]]], ["pock", 31403824491037066591499817894944285817349, 2, [[1597985155175394950130823858429, 1]]], ["pock", 1439300084073210836021619653761086507580739369, 2, [[31403824491037066591499817894944285817349, 1]]], ["ec", 539539676638146252332438762368326178374664113417997407389234042554543619981956406210579, 539539676638146252332438762368326178374664113417997407389234042554543619981956406210576, 151473187020643895780040093438693788724423647042907600940263459609933935637419943715883, 479936954348712616897146271219384760837097985344939882734740435611140323429071507673917, 314699169519962359283743387493210361399273119601187058609438935217019661725016531116425, 1439300084073210836021619653761086507580739369], ["pock", 6934458157477197745950681701337691716675829213065403606583048380724947236019209865952665406648463131269, 2, [[539539676638146252332438762368326178374664113417997407389234042554543619981956406210579, 1]]], ["ec", 47027135855253862293695221904893529952882567781986512512560214543064399068519017805091617745746803253071739920867384142251535402763, 47027135855253862293695221904893529952882567781986512512560214543064399068519017805091617745746803253071739920867384142251535402760, 10030310567967210368940257143085514797273977769524427384746245037056671279040366710326652520008550859028144574068765945243184831827, 30801893043579228473972585328274501386234747250867537347026906425783704147403825258580343439578870119202507185515331031401598073861, 3068017134268774507880062666007208259690174192135157063941912401452911888530747007164283948722355107375034808269807542257756426284, 6934458157477197745950681701337691716675829213065403606583048380724947236019209865952665406648463131269], ["pock", 5984062708607661899347632600855537484210927348675522269469949820924748277302224554948777964758927405492471738858450763827227401419949905209, 2, [[47027135855253862293695221904893529952882567781986512512560214543064399068519017805091617745746803253071739920867384142251535402763, 1]]], ["pock", 40042164124641494154303904424381601698397925603987099649445546188323683505622961938253989390289490448175898881475679815725449685324749352309056813, 2, [[5984062708607661899347632600855537484210927348675522269469949820924748277302224554948777964758927405492471738858450763827227401419949905209, 1]]], ["pock", 233846238487906325861134801838388553918643885527284661952761989739810311672838097719403298039290624217347249467817970123836626162296536217484891787921, 2, [[40042164124641494154303904424381601698397925603987099649445546188323683505622961938253989390289490448175898881475679815725449685324749352309056813, 1]]], ["pock", 6703903964971298549787012499102923063739682910296196688861780721860882015036922585419853748190383615062910947743405567510148398820717100282856877776119229, 2, [[233846238487906325861134801838388553918643885527284661952761989739810311672838097719403298039290624217347249467817970123836626162296536217484891787921, 1]]]], "GOSTmsg05975sw": [["pock", 3, 2, [[2, 1]]], ["pock", 7, 3, [[3, 1], [2, 1]]], ["pock", 5, 2, [[2, 2]]], ["pock", 211, 2, [[7, 1], [5, 1]]], ["pock", 15193, 2, [[211, 1]]], ["pock", 334247, 2, [[15193, 1]]], ["pock", 6383449207, 2, [[334247, 1]]], ["pock", 241, 7, [[2, 4]]], ["pock", 2411, 2, [[241, 1]]], ["pock", 163, 2, [[3, 3]]], ["pock", 49517119, 2, [[2411, 1], [163, 1]]], ["pock", 109, 3, [[3, 3]]], ["pock", 13, 2, [[2, 2]]], ["pock", 56681, 2, [[109, 1], [13, 1]]], ["pock", 1020259, 2, [[56681, 1]]], ["pock", 73, 5, [[3, 1], [2, 3]]], ["pock", 439, 2, [[73, 1]]], ["pock", 4391, 2, [[439, 1]]], ["pock", 131731, 2, [[4391, 1]]], ["pock", 436507076468900140366425501171682883740734440658830508948366357059, 2, [[6383449207, 1], [49517119, 1], [1020259, 1], [131731, 1], [73, 2], [7, 1]]], ["ec", 420426262271451487994927477411117644412503441373322668170267384818812032370540956528975568812959336884879308530937, 197628829873971958233692174043386100776395230700556207018109233940937095319041678710135865319496120740039760960662, 98194416551304543452403943596463476704646180504090465833340933378040941236084320328485459314374619953626791827624, 106514052013782825553825545628933366751720180681833097839908518459895366957740267760797677328743281732670540795420, 352202035207518855646537417229489184351118734024167551901672255330558413021218254132416315086197942126400258870595, 436507076468900140366425501171682883740734440658830508948366357059], ["ec", 3351951982485649274893506249551461531869841455148098344430890360930441007518362115868300084349221274418848205850841645514717116281909345935543464929272813, 3351951982485649274893506249551461531869841455148098344430890360930441007518362115868300084349221274418848205850841645514717116281909345935543464929272810, 2094472657986826674134833256275905441861929325122843169212700873621151248870388463854593997842613752203391546817428059248102569346628472982596037153281095, 2971532779291228846929396229231945423306273086949519592449709946201437123770053443079787615016154855418153404249099798433154736499606943727663138754472228, 1919424971981415000483775782981454350728063158558595141849295676383440630003382278922775408918081717920424964811223472152146357319142869272055672965434845, 420426262271451487994927477411117644412503441373322668170267384818812032370540956528975568812959336884879308530937]], "FRP256v1": [["pock", 17, 3, [[2, 3]]], ["pock", 3, 2, [[2, 1]]], ["pock", 307, 5, [[17, 1], [3, 1]]], ["pock", 5, 2, [[2, 2]]], ["pock", 11, 2, [[5, 1]]], ["pock", 5315399, 11, [[307, 1], [11, 1], [2, 1]]], ["pock", 127, 3, [[3, 2], [2, 1]]], ["pock", 509, 2, [[127, 1]]], ["pock", 1019, 2, [[509, 1]]], ["pock", 2039, 2, [[1019, 1]]], ["pock", 4079, 2, [[2039, 1]]], ["pock", 181, 2, [[3, 2], [2, 1]]], ["pock", 1087, 2, [[181, 1]]], ["pock", 548794774797769816735663, 2, [[5315399, 1], [4079, 1], [1087, 1]]], ["pock", 1720805198043061735464389957585107660393, 2, [[548794774797769816735663, 1]]], ["pock", 160847769765829662053086933326768494988741892623088564991, 2, [[1720805198043061735464389957585107660393, 1]]], ["pock", 109454571331697278617670725030735128146004546811402412653072203207726079563233, 2, [[160847769765829662053086933326768494988741892623088564991, 1]]]], "SECP_384r1": [["pock", 13, 2, [[2, 2]]], ["pock", 313, 7, [[13, 1], [2, 2]]], ["pock", 21911, 2, [[313, 1]]], ["pock", 3, 2, [[2, 1]]], ["pock", 19, 2, [[3, 2]]], ["pock", 17, 3, [[2, 3]]], ["pock", 647, 2, [[19, 1], [17, 1]]], ["pock", 9059, 2, [[647, 1]]], ["pock", 18119, 2, [[9059, 1]]], ["pock", 2688520629749, 2, [[21911, 1], [18119, 1]]], ["pock", 129048990227953, 2, [[2688520629749, 1]]], ["pock", 5, 2, [[2, 2]]], ["pock", 251, 3, [[5, 2]]], ["pock", 503, 2, [[251, 1]]], ["pock", 10061, 2, [[503, 1]]], ["pock", 20123, 2, [[10061, 1]]], ["pock", 163, 2, [[3, 3]]], ["pock", 653, 2, [[163, 1]]], ["pock", 283200155089, 2, [[20123, 1], [653, 1]]], ["pock", 36886359021104562008278365181199, 2, [[129048990227953, 1], [283200155089, 1]]], ["pock", 1288146182659373853239416781835821556633989, 2, [[36886359021104562008278365181199, 1]]], ["ec", 4626215805793376224551275839496920322241974757104350072020811960546502499885241, 2244591404419581008020519855781026367972267474532926515065280031804479641421294, 3038466204877512746864105183686324352728836568723401034050457341385153927575943, 3679254650050849814427929696086599545873559061838387897327498465498156449533707, 4319144565961539842637702055598069881833432215023876266786379889606441895454315, 1288146182659373853239416781835821556633989], ["ec", 39402006196394479212279040100143613805079739270465446667946905279627659399113263569398956308152294913554433653942643, 9959544926241189135965441880344806702337786283740361174953175841463067101401598095233015640099763290381590661648368, 13279393234988252181287255840459742269783715044987148233270901121950756135202130793644020853466351053842120882197824, 37173683243484369986917775960129708889025179102167936516017021825813213789269289620254214254938279033045477068209657, 35137940428026290140805295967859267167392701071122512346631441278651432556183575401133205998091643680971055126801302, 4626215805793376224551275839496920322241974757104350072020811960546502499885241]], "SECP_521r1": [["pock", 3, 2, [[2, 1]]], ["pock", 2017, 5, [[2, 5], [3, 1]]], ["pock", 80681, 2, [[2017, 1]]], ["pock", 161363, 2, [[80681, 1]]], ["pock", 37, 2, [[3, 2]]], ["pock", 17, 3, [[2, 3]]], ["pock", 1259, 2, [[37, 1], [17, 1]]], ["pock", 1089728875189, 2, [[161363, 1], [1259, 1]]], ["pock", 163, 2, [[3, 3]]], ["pock", 5, 2, [[2, 2]]], ["pock", 61, 2, [[5, 1], [2, 1]]], ["pock", 13, 2, [[2, 2]]], ["pock", 108577561, 2, [[163, 1], [61, 1], [13, 1]]], ["pock", 6297498539, 2, [[108577561, 1]]], ["pock", 113803293421863751633694285021567047, 2, [[1089728875189, 1], [6297498539, 1]]], ["pock", 18366696061247131666665332558463390215362576470766091, 2, [[113803293421863751633694285021567047, 1]]], ["pock", 2100948188726203160139288576235297642349062058038788821786654414274898810131290839, 2, [[18366696061247131666665332558463390215362576470766091, 1]]], ["ec", 310762444885798318111814577648383553831067935863142939493208987681391923872603936986116119012891509672951105048809521, 310762444885798318111814577648383553831067935863142939493208987681391923872603936986116119012891509672951105048809518, 134376693843434666328540047276592334270507752401561801193172885077127220857161604106446065938111526157708789014620817, 264197981082137133619412401970608604678348164848950168434536725910389976756971847312962224511390652919341911513604758, 80430170461221966557050398941605258343350188799160230081039358511069843527943348315905376540089163691406920524444367, 2100948188726203160139288576235297642349062058038788821786654414274898810131290839], ["ec", 6864797660130609714981900799081393217269435300143305409394463459185543183397655394245057746333217197532963996371363321113864768612440380340372808892707005449, 6864797660130609714981900799081393217269435300143305409394463459185543183397655394245057746333217197532963996371363321113864768612440380340372808892707005446, 3782830934071953318676133785436076859620812065679052257533088241594944951108409937647898731317962902538404029586991647954689865266794617690405753939218843632, 5742355995233581569546952597646386219374820796570909705955045512989428168244781597428699778218133758767122101403486259729950532357643239464761019715487408324, 4783341685356373983367175729251758448379996669622609428294696785031352642710788139067653805042290476008696975571204091962092719877734253197463005738046320011, 310762444885798318111814577648383553831067935863142939493208987681391923872603936986116119012891509672951105048809521]], "BrainPoolP160r1": [["pock", 3, 2, [[2, 1]]], ["pock", 7, 3, [[3, 1], [2, 1]]], ["pock", 3244753, 10, [[3, 3], [2, 4], [7, 1]]], ["pock", 17, 3, [[2, 3]]], ["pock", 5, 2, [[2, 2]]], ["pock", 11, 2, [[5, 1]]], ["pock", 2745161, 3, [[17, 1], [11, 1], [2, 2], [5, 1]]], ["pock", 13, 2, [[2, 2]]], ["pock", 216841, 29, [[13, 1], [2, 3], [5, 1]]], ["pock", 1933, 5, [[7, 1], [2, 2], [3, 1]]], ["pock", 41, 3, [[2, 3]]], ["pock", 83, 2, [[41, 1]]], ["pock", 1332297598440044874827085038830181364212942568457, 5, [[3244753, 1], [2745161, 1], [216841, 1], [1933, 1], [83, 1], [2, 2]]]], "BrainPoolP192r1": [["pock", 3, 2, [[2, 1]]], ["pock", 7, 3, [[3, 1], [2, 1]]], ["pock", 43, 3, [[7, 1], [3, 1]]], ["pock", 173, 2, [[43, 1]]], ["pock", 2423, 2, [[173, 1]]], ["pock", 29077, 2, [[2423, 1]]], ["pock", 3140317, 2, [[29077, 1]]], ["pock", 97, 5, [[2, 4]]], ["pock", 971, 2, [[97, 1]]], ["pock", 5827, 2, [[971, 1]]], ["pock", 29, 2, [[7, 1], [2, 1]]], ["pock", 19, 2, [[3, 2]]], ["pock", 1103, 3, [[29, 1], [19, 1]]], ["pock", 41, 3, [[2, 3]]], ["pock", 83, 2, [[41, 1]]], ["pock", 107647262337333555283688982427, 2, [[3140317, 1], [5827, 1], [1103, 1], [83, 1]]], ["pock", 4781668983906166242955001894269038308119863659119834868929, 2, [[107647262337333555283688982427, 1]]]], "BrainPoolP224r1": [["pock", 5, 2, [[2, 2]]], ["pock", 11, 2, [[5, 1]]], ["pock", 23, 2, [[11, 1]]], ["pock", 461, 2, [[23, 1], [5, 1]]], ["pock", 17, 3, [[2, 3]]], ["pock", 239, 2, [[17, 1]]], ["pock", 440717, 2, [[461, 1], [239, 1]]], ["pock", 37901663, 2, [[440717, 1]]], ["pock", 73831150867459, 2, [[37901663, 1]]], ["pock", 806539990497420485986591867, 2, [[73831150867459, 1]]], ["pock", 8065399904974204859865918671, 2, [[806539990497420485986591867, 1]]], ["pock", 983978788406852992903642077863, 2, [[8065399904974204859865918671, 1]]], ["pock", 1161088527226980043552900118830014153077, 2, [[983978788406852992903642077863, 1]]], ["pock", 1990826783253337021526517590177438885463180347771, 2, [[1161088527226980043552900118830014153077, 1]]], ["pock", 21889810146873172242343485545193568027521720946368744885738498041, 2, [[1990826783253337021526517590177438885463180347771, 1]]], ["pock", 22721622932454352787552537995910923612567546342330757191396560966559, 2, [[21889810146873172242343485545193568027521720946368744885738498041, 1]]]], "BrainPoolP256r1": [["pock", 5, 2, [[2, 2]]], ["pock", 11, 2, [[5, 1]]], ["pock", 23, 2, [[11, 1]]], ["pock", 47, 2, [[23, 1]]], ["pock", 659, 2, [[47, 1]]], ["pock", 1319, 2, [[659, 1]]], ["pock", 50123, 2, [[1319, 1]]], ["pock", 41802583, 2, [[50123, 1]]], ["pock", 3, 2, [[2, 1]]], ["pock", 7, 3, [[3, 1], [2, 1]]], ["pock", 43, 3, [[7, 1], [3, 1]]], ["pock", 173, 2, [[43, 1]]], ["pock", 61, 2, [[2, 2], [3, 1]]], ["pock", 21107, 2, [[173, 1], [61, 1]]], ["pock", 1674656872585139, 2, [[41802583, 1], [21107, 1]]], ["pock", 190455129210693390224369129, 2, [[1674656872585139, 1]]], ["pock", 114430077720284863765762092766225391679591020381, 2, [[190455129210693390224369129, 1]]], ["pock", 4271386466502519123378319257166758282929862876911918307708639947947974242171, 2, [[114430077720284863765762092766225391679591020381, 1]]], ["pock", 76884956397045344220809746629001649092737531784414529538755519063063536359079, 2, [[4271386466502519123378319257166758282929862876911918307708639947947974242171, 1]]]], "BrainPoolP320r1": [["pock", 13, 2, [[2, 2]]], ["pock", 157, 2, [[13, 1], [2, 1]]], ["pock", 5, 2, [[2, 2]]], ["pock", 39251, 2, [[157, 1], [5, 1]]], ["pock", 3, 2, [[2, 1]]], ["pock", 205122193411, 3, [[39251, 1], [5, 1], [3, 1]]], ["pock", 4161929304309191, 2, [[205122193411, 1]]], ["pock", 7, 3, [[3, 1], [2, 1]]], ["pock", 43, 3, [[7, 1], [3, 1]]], ["pock", 37, 2, [[3, 2]]], ["pock", 4484624887, 5, [[43, 1], [37, 1], [3, 3], [7, 1]]], ["pock", 56834084706324953499635029374333218339957513609, 2, [[4161929304309191, 1], [4484624887, 1]]], ["pock", 23341373081361435103090946041083073851794115571864009670215941767494551877, 2, [[56834084706324953499635029374333218339957513609, 1]]], ["pock", 299589410500344960818634453344053290288849906371853185689121682914766027672438458623, 2, [[23341373081361435103090946041083073851794115571864009670215941767494551877, 1]]], ["pock", 1763593322239166354161909842446019520889512772717686063760686124016784784845843468355685258203921, 2, [[299589410500344960818634453344053290288849906371853185689121682914766027672438458623, 1]]]], "BrainPoolP384r1": [["pock", 3, 2, [[2, 1]]], ["pock", 19, 2, [[3, 2]]], ["pock", 5, 2, [[2, 2]]], ["pock", 571, 3, [[19, 1], [5, 1]]], ["pock", 43397, 2, [[571, 1]]], ["pock", 11543603, 2, [[43397, 1]]], ["pock", 1454493979, 2, [[11543603, 1]]], ["pock", 7, 3, [[3, 1], [2, 1]]], ["pock", 29, 2, [[7, 1], [2, 1]]], ["pock", 59, 2, [[29, 1]]], ["pock", 13, 2, [[2, 2]]], ["pock", 53, 2, [[13, 1]]], ["pock", 11594917, 5, [[59, 1], [53, 1], [3, 1]]], ["pock", 1801, 11, [[3, 2], [2, 3]]], ["pock", 28817, 2, [[1801, 1]]], ["pock", 5071793, 2, [[28817, 1]]], ["pock", 2788900573532341797131599550190476443808598899, 2, [[1454493979, 1], [11594917, 1], [5071793, 1]]], ["pock", 669909697361913545660898382546007419518544524592370543, 2, [[2788900573532341797131599550190476443808598899, 1]]], ["pock", 90050068090664042551646936303486902724615855323314057604193773, 2, [[669909697361913545660898382546007419518544524592370543, 1]]], ["pock", 21659270770119316173069236842332604979796116387017648600075645274821611501358515537962695117368903252229601718723941, 2, [[90050068090664042551646936303486902724615855323314057604193773, 1]]]], "BrainPoolP512r1": [["pock", 3, 2, [[2, 1]]], ["pock", 19, 2, [[3, 2]]], ["pock", 40129, 7, [[2, 4], [19, 1]]], ["pock", 271, 6, [[3, 3], [2, 1]]], ["pock", 361396637489, 2, [[40129, 1], [271, 1]]], ["pock", 5, 2, [[2, 2]]], ["pock", 11, 2, [[5, 1]]], ["pock", 23, 2, [[11, 1]]], ["pock", 13, 2, [[2, 2]]], ["pock", 1288691, 2, [[23, 1], [13, 1], [5, 1], [2, 1]]], ["pock", 191760954274777244141857, 2, [[361396637489, 1], [1288691, 1]]], ["pock", 251, 3, [[5, 2]]], ["pock", 8332699, 2, [[251, 1], [11, 1], [3, 1]]], ["pock", 37, 2, [[3, 2]]], ["pock", 516521, 6, [[37, 1], [2, 3], [5, 1]]], ["pock", 4982806528470961888578867896009647265488138691022009860168845631273, 2, [[191760954274777244141857, 1], [8332699, 1], [516521, 1]]], ["pock", 23337925407708917343269873493319607638879341485914224746228038546474382183428298476287118961279, 2, [[4982806528470961888578867896009647265488138691022009860168845631273, 1]]], ["pock", 8948962207650232551656602815159153422162609644098354511344597187200057010413418528378981730643524959857451398370029280583094215613882043973354392115544169, 2, [[23337925407708917343269873493319607638879341485914224746228038546474382183428298476287118961279, 1]]]], "Curve25519": [["pock", 5, 2, [[2, 2]]], ["pock", 61, 2, [[5, 1], [2, 1]]], ["pock", 367, 2, [[61, 1]]], ["pock", 3, 2, [[2, 1]]], ["pock", 7, 3, [[3, 1], [2, 1]]], ["pock", 29, 2, [[7, 1], [2, 1]]], ["pock", 349, 2, [[29, 1], [2, 1]]], ["pock", 8453479, 2, [[367, 1], [349, 1]]], ["pock", 33813917, 2, [[8453479, 1]]], ["pock", 22968306005753, 2, [[33813917, 1]]], ["pock", 21402602521952829497, 2, [[22968306005753, 1]]], ["pock", 47256946368471847529377, 2, [[21402602521952829497, 1]]], ["ec", 2313141234221332690608458520623803155094519, 2313141234221332690608458520623803155094516, 1639804786418089360778254355180701549842247, 1137427572469373817181804422534893692742189, 1813928634669674404665659740280800349443782, 47256946368471847529377], ["ec", 7237005577332262213973186563042994240857116359379907606001950938285454250989, 1906928505123752099999734207828379292543298699247661038333708238646467082574, 6095956054970676209315280513914249022266943372418379096223772784621280889042, 5130494695926655139422312149494582405893487634845308342862573661912052852538, 1820904730508858657851392896907512117861433577989277967483728685081889919624, 2313141234221332690608458520623803155094519]], "E382": [["pock", 17, 3, [[2, 3]]], ["pock", 137, 2, [[17, 1]]], ["pock", 823, 2, [[137, 1]]], ["pock", 3, 2, [[2, 1]]], ["pock", 5, 2, [[2, 2]]], ["pock", 181, 2, [[3, 2], [5, 1]]], ["pock", 25919563, 2, [[823, 1], [181, 1]]], ["pock", 777586891, 2, [[25919563, 1]]], ["pock", 175734637367, 2, [[777586891, 1]]], ["pock", 17485786413519689332051, 2, [[175734637367, 1]]], ["pock", 5, 2, [[2, 2]]], ["pock", 61, 2, [[5, 1], [2, 1]]], ["pock", 733, 2, [[61, 1]]], ["pock", 3, 2, [[2, 1]]], ["pock", 7, 3, [[3, 1], [2, 1]]], ["pock", 3, 2, [[2, 1]]], ["pock", 43, 3, [[7, 1], [3, 1]]], ["pock", 173, 2, [[43, 1]]], ["pock", 347, 2, [[173, 1]]], ["pock", 3052213, 2, [[733, 1], [347, 1]]], ["pock", 5, 2, [[2, 2]]], ["pock", 11, 2, [[5, 1]]], ["pock", 23, 2, [[11, 1]]], ["pock", 47, 2, [[23, 1]]], ["pock", 17, 3, [[2, 3]]], ["pock", 55931, 2, [[47, 1], [17, 1]]], ["pock", 123255020868767, 2, [[3052213, 1], [55931, 1]]], ["pock", 304659481113489190920380287783161757970310880951, 2, [[17485786413519689332051, 1], [123255020868767, 1]]], ["pock", 3303337631544357230763663556228649543876233496649242673377358371, 2, [[304659481113489190920380287783161757970310880951, 1]]], ["ec", 2462625387274654950767440006258975862817483704404090416745738034557663054564649171262659326683244604346084081047321, 1586233320982449842317714604472843569959924552148059554356191175151698860616884803384965487440367062349302417841613, 709841254690244733867989202686711277102365399892028691966644315745734666669120435507271648197489520352520754635905, 1308398949683188067517857169651737188297001972189302154465457417505369035589273949192364530840716520707064812954845, 2023514181880744039650332296573655180955566347889714012694733379967608895204240866485439846261068056503426369508270, 3303337631544357230763663556228649543876233496649242673377358371]], "M383": [["pock", 929, 3, [[2, 5]]], ["pock", 189517, 2, [[929, 1]]], ["pock", 198992851, 2, [[189517, 1]]], ["pock", 5, 2, [[2, 2]]], ["pock", 11, 2, [[5, 1]]], ["pock", 3, 2, [[2, 1]]], ["pock", 199, 2, [[11, 1], [3, 1]]], ["pock", 2389, 2, [[199, 1]]], ["pock", 344017, 2, [[2389, 1]]], ["pock", 245328392616598763231, 2, [[198992851, 1], [344017, 1]]], ["pock", 34955567022045560680464857345909, 2, [[245328392616598763231, 1]]], ["ec", 2327857507173547149769696083523611455942141054844283865629109, 1570412925135276769545001133156006627977859470023111133061048, 1317931397789186642803436149700138351989765608416053555538361, 2324139279315500769288725345517979551271142062848803676278212, 6780715918005461789003726656487605404156495377540799236233, 34955567022045560680464857345909], ["ec", 23978163906116309806674273528410869974800147232588444606571758029980837570993229680578504611504832152780419, 23978163906116309806674273528410869974800147232588444606571758029980837570993229680578504611504832152780416, 16406307135613968650416576755024720408468761296046421614958821129352518882695743573268388506006236772686951, 6667920030339189092991554936801006459875028245078967715325224056396040409640711852542659788331354282955385, 12440557716336086452361820530630137402058454196350757972349679837483237361442758419524789546880125055460376, 2327857507173547149769696083523611455942141054844283865629109], ["pock", 2462625387274654950767440006258975862817483704404090416746934574041288984234680883008327183083615266784870011007447, 2, [[23978163906116309806674273528410869974800147232588444606571758029980837570993229680578504611504832152780419, 1]]]], "Curve3617": [["pock", 3, 2, [[2, 1]]], ["pock", 7, 3, [[3, 1], [2, 1]]], ["pock", 3, 2, [[2, 1]]], ["pock", 43, 3, [[7, 1], [3, 1]]], ["pock", 1033, 5, [[43, 1], [2, 1]]], ["pock", 4133, 2, [[1033, 1]]], ["pock", 17, 3, [[2, 3]]], ["pock", 103, 2, [[17, 1]]], ["pock", 619, 2, [[103, 1]]], ["pock", 5, 2, [[2, 2]]], ["pock", 3, 2, [[2, 1]]], ["pock", 31, 3, [[5, 1], [3, 1]]], ["pock", 5, 2, [[2, 2]]], ["pock", 311, 2, [[31, 1], [5, 1]]], ["pock", 13904599344773, 3, [[4133, 1], [619, 1], [311, 1]]], ["pock", 131342845410725759, 2, [[13904599344773, 1]]], ["pock", 4868010057124911294296551654477037, 2, [[131342845410725759, 1]]], ["pock", 592299861982871449195634528262215319398393153, 2, [[4868010057124911294296551654477037, 1]]], ["pock", 3376384040438327312767543585515740988479041826522993, 2, [[592299861982871449195634528262215319398393153, 1]]], ["pock", 2394768781123004469808382870696186422325158931040989687224220336205960556679, 2, [[3376384040438327312767543585515740988479041826522993, 1]]], ["pock", 181015782627525661863876044430183339290714113279526328477904366773136146558252253, 2, [[2394768781123004469808382870696186422325158931040989687224220336205960556679, 1]]], ["pock", 7005507114193524029414407471112866694107408372181827430432047949693881095742546770048184168812214569007093, 2, [[181015782627525661863876044430183339290714113279526328477904366773136146558252253, 1]]], ["pock", 5288447750321988791615322464262168318627237463714249754277190328831105466135348245791335989419337099796002495788978276839289, 2, [[7005507114193524029414407471112866694107408372181827430432047949693881095742546770048184168812214569007093, 1]]]], "E521": [["pock", 3, 2, [[2, 1]]], ["pock", 3, 2, [[2, 1]]], ["pock", 7, 3, [[3, 1], [2, 1]]], ["pock", 127, 3, [[3, 1], [7, 1]]], ["pock", 509, 2, [[127, 1]]], ["pock", 3518209, 11, [[509, 1], [2, 3]]], ["pock", 1540975543, 2, [[3518209, 1]]], ["pock", 117114141269, 2, [[1540975543, 1]]], ["pock", 17, 3, [[2, 3]]], ["pock", 137, 2, [[17, 1]]], ["pock", 823, 2, [[137, 1]]], ["pock", 42797, 2, [[823, 1]]], ["pock", 1112723, 2, [[42797, 1]]], ["pock", 171415053368942377352009, 2, [[117114141269, 1], [1112723, 1]]], ["pock", 8522345418189259781744034178658821140909491, 2, [[171415053368942377352009, 1]]], ["ec", 67270429185030178371708934292349520908384078456294962942496317861003, 67270429185030178371708934292349520908384078456294962942496317861000, 53779789738298094580315769185580876654088294437229365086896125196029, 66290729217399572037876572756684661216345186388606768834280360280108, 36702995995246735152744305126873309470297109893008005663292556237129, 8522345418189259781744034178658821140909491], ["pock", 141267901288563374580588762013933993907606564758219422179242267508106301, 2, [[67270429185030178371708934292349520908384078456294962942496317861003, 1]]], ["ec", 6138665744508886387535572360472314366713028195757622494822734750513519139469942212404231928639547743769193, 3047590936615489515270418226179531655432704593602270773926721326031536659105107312103525136040104825055290, 2031727291076993010180278817453021103621803062401513849284480884021024439403404874735683424026736550036860, 4391355958335095802600645891997445288061746038746592696846769385652625197249213978272802125839709734577638, 1423841970250956679743920553246746786454153433250951682235522681154440863899241524245121750701801500944000, 141267901288563374580588762013933993907606564758219422179242267508106301], ["ec", 1716199415032652428745475199770348304317358825035826352348615864796385795849413675475876651663657849636693659065234142604319282948702542317993421293670108523, 387920440337583690405451987282185512659734311008710276128855956383272232765692075945592377787888326202431728717915882528798453394970782468669670411050984597, 830680098569273269852126391444906443212275815684415634868775925854310087126932609122353802413144834013852372167021969220638729912881369085110920705257359239, 583351485255090450422285564893381416590671144564484873494010555461358079960300681066549273432436305523733110191557400208582534406211760156453700588444663328, 1701408639329150511410335047478560557994121232933689467254465159821744165896027288225898529875685214088928101545945480860330158723610530286748179717606457950, 6138665744508886387535572360472314366713028195757622494822734750513519139469942212404231928639547743769193]], "M511": [["pock", 5, 2, [[2, 2]]], ["pock", 11, 2, [[5, 1]]], ["pock", 3, 2, [[2, 1]]], ["pock", 67, 2, [[11, 1], [3, 1]]], ["pock", 2011, 2, [[67, 1]]], ["pock", 5, 2, [[2, 2]]], ["pock", 11, 2, [[5, 1]]], ["pock", 3, 2, [[2, 1]]], ["pock", 67, 2, [[11, 1], [3, 1]]], ["pock", 269, 2, [[67, 1]]], ["pock", 1081919, 2, [[2011, 1], [269, 1]]], ["pock", 863371363, 2, [[1081919, 1]]], ["pock", 3108150720741809, 2, [[863371363, 1]]], ["pock", 52689371018015146169, 2, [[3108150720741809, 1]]], ["pock", 685133274447489521482633927, 2, [[52689371018015146169, 1]]], ["pock", 38097519651259440782642293834173374907932984641, 2, [[685133274447489521482633927, 1]]], ["ec", 2773588836826453836850837509246312133948293074971211750294255506459178766737, 9, 0, 1833297328983257405836799442854486009687590856512180459002375535415827852515, 2193004318534419180910054599596245368842890598972097216317291432184036159839, 38097519651259440782642293834173374907932984641], ["ec", 32020501404021302912833884039425793432737503423263697983612815518001884056080615391006947952481306256792276220167851, 32020501404021302912833884039425793432737503423263697983612815518001884056080615391006947952481306256792276220167848, 26329924271304419095457947714507578219008157868509133627277946192036642894083613390825545665068111124065783461128910, 4384795109558116899031340209844880216930324267159056219185253054658755773568214451199579592007051107899897339841773, 5715726831182431960000233066682069430294309730009905433246002378874403861444236202837401829616635644066267550562644, 2773588836826453836850837509246312133948293074971211750294255506459178766737], ["pock", 576369025272383452431009912709664281789275061618746563705030679324033913009451077038125063144663512622260971963021319, 2, [[32020501404021302912833884039425793432737503423263697983612815518001884056080615391006947952481306256792276220167851, 1]]], ["ec", 837987995621412318723376562387865382967460363787024586107722590232610251879607410804876779383055508762141059258497448934987052508775626162460930737942299, 218537916176020562973443893315081968437213908761586043724445074489554494242476716954581454203450946349962801159845403792865443082523155318586592733374836, 291383888234694083964591857753442624582951878348781391632593432652739325656635622606108605604601261799950401546460538390487257443364207091448790311166448, 184977998147774365159315688655681848400954218626311106654625422502904599907929488692265157527470946190586141798811582459544736515147323623886709438130891, 373660694542464283895600274385954944981051458939997398916271381425824860276610892108644557212777255034402948393109012797498683276149557365233058137283245, 576369025272383452431009912709664281789275061618746563705030679324033913009451077038125063144663512622260971963021319]], "GOSTmsg05975te": [["pock", 17, 3, [[2, 3]]], ["pock", 3, 2, [[2, 1]]], ["pock", 7, 3, [[3, 1], [2, 1]]], ["pock", 1429, 3, [[17, 1], [7, 1]]], ["pock", 377257, 2, [[1429, 1]]], ["pock", 5, 2, [[2, 2]]], ["pock", 5, 2, [[2, 2]]], ["pock", 11, 2, [[5, 1]]], ["pock", 9901, 2, [[5, 2], [11, 1]]], ["pock", 179290634737, 2, [[377257, 1], [9901, 1]]], ["pock", 96816942757981, 2, [[179290634737, 1]]], ["pock", 580901656547887, 2, [[96816942757981, 1]]], ["pock", 8208140407021643311, 2, [[580901656547887, 1]]], ["pock", 426823301165125452173, 2, [[8208140407021643311, 1]]], ["pock", 13, 2, [[2, 2]]], ["pock", 3, 2, [[2, 1]]], ["pock", 79, 2, [[13, 1], [3, 1]]], ["pock", 3319, 2, [[79, 1]]], ["pock", 17, 3, [[2, 3]]], ["pock", 137, 2, [[17, 1]]], ["pock", 4984454287, 2, [[3319, 1], [137, 1]]], ["pock", 1889197894950167, 2, [[4984454287, 1]]], ["pock", 42563390724756941025919865365266206323321807747, 2, [[426823301165125452173, 1], [1889197894950167, 1]]], ["ec", 130870307852312378666796742679710899130411951417380276725606701107877015605363567545327, 16362612798559783309215846286161316217956179888662177280598371068502072133437954050505, 10908408532373188872810564190774210811970786592441451520398914045668048088958636033670, 71132584978940995938287676105304311803929806564836990953857068099279758799502705590769, 117786130376260945109154846213835364326859375927572877375277662764556918069672827075863, 42563390724756941025919865365266206323321807747], ["pock", 55835178430152164512923277106257742912527681679254322377856436070815301697082846622675239351946815969571589, 2, [[130870307852312378666796742679710899130411951417380276725606701107877015605363567545327, 1]]], ["ec", 3351951982485649274893506249551461531869841455148098344430890360930441007518411372532637064734230439426167723242401379912159825124063939037673359573768951, 1952902766055570217100202019296533169820156227358621178710444022251597327003687765788945607580830142342420974821850087676882211015491776039973017159940874, 1301935177370380144733468012864355446546770818239080785806962681501064884669125177192630405053886761561613983214566725117921474010327850693315344773293916, 1573816964017976717684559509240191027702401102872842259954490973557173990288393945940303163627625768707042412289886696355907516402743497025748607862780576, 911115217114802789324263768521430432056924327085737388603042599271661416936052266463857230127420914940405645384137399405947807363137736539212014707099773, 55835178430152164512923277106257742912527681679254322377856436070815301697082846622675239351946815969571589]]}