(** Numbers for the verification of the vectors of Spec/CurveVectorSpec.v.  Generated by tools/gen_vectors.py. *)
From Coq Require Import ZArith List.
From Verif Require Import Proofs.EcCheck.
Import ListNotations.
Local Open Scope Z_scope.

Definition secp256k1_w : list Z := [52352394378269869742127408893709070586742688753655629538593332186080408987278; 41763634753449761501233381286529822667768621678728730130433849966627319865591; 8027682518508343935948311984048105286718324036938836490337795103995688858307; 106493293492290072982252236634135137485605194836063025768830668387058520438478; 58106247011197133951547353212486598921718849172489888458546571724611854943697].
Definition bip32_w : Z * Z := (59450316430607563675655069116473720157517557387179810391148640351173333685613, 27475340966630338619946172401610299714452031745281566289223681642426902078081).
Definition job_p192_S : ecjob := ec_job 7 6277101735386680763835789423207666416083908700390324961279 23384026197294446693794258523916987117557046575104 6277101735386680763835789423207666416083908700390324961276 2455155546008943817740293915197451784769108058161191238065 5206740333133064750202129362262409028415794571159000296696 1234539015068213699179346148240981644175632721097521553211 6277101735386680763835789423176059013767194773182842284081 4750694444230470413221874177076229412094655689984711733924 4132667710685521950347358162942242882735741259200740455130 2092367245128893587945263141069222138694636233463441653760.
Definition job_p192_T : ecjob := ec_job 7 6277101735386680763835789423207666416083908700390324961279 23384026197294446693794258523916987117557046575104 6277101735386680763835789423207666416083908700390324961276 2455155546008943817740293915197451784769108058161191238065 5938062382599723486047778306805458657136056379418357486500 938283877858310256697963661438335331434554539784311315577 6277101735386680763835789423176059013767194773182842284081 28786152293188209424772050124455482561283958433736086927 4132667710685521950347358162942242882735741259200740455130 2092367245128893587945263141069222138694636233463441653760.
(** inverses for 2 S, d S, e T; e T; the slopes of S + T, S - T, d S + e T *)
Definition p192_w : Z * Z * Z * (Z * Z) * Z * Z * Z :=
  (1976178336567534478159426780428480864906372423955454128334, 5483572913552839418530677840271774597869011301298603813179, 3247357599983364512890363607911698490167785407978321898271, (4363216352266508726845701162829086743031150668020292663528, 3748213444800742869751485037350219305760170557856582635145), 5326629741620509016018514487338936542224437350310453466819, 5448477054317304995037697963523938394113048646500830596814, 5025454223446846271939754924241827947889930392846369730102).
Definition job_p521_S : ecjob := ec_job 18 6864797660130609714981900799081393217269435300143305409394463459185543183397656052122559640661454554977296311391480858037121987999716643812574028291115057151 274877906944 6864797660130609714981900799081393217269435300143305409394463459185543183397656052122559640661454554977296311391480858037121987999716643812574028291115057148 1093849038073734274511112390766805569936207598951683748994586394495953116150735016013708737573759623248592132296706313309438452531591012912142327488478985984 6298662291797597455690424015484694729934739924258269207282256796654663457328131424431164751951136256517278028595707590389210532306396886103392981032134623668 4353738610347946608426792277824204199293251581155193185744917590170187881415595621178782174392578394291724427970699014037986967831774135041879292583939676195 6864797660130609714981900799081393217269435300143305409394463459185543183397655394245057746333217197532963996371363321113864768612440380340372808892707005449 2950980035916685260858990005984329582525711516680648409384340758382340148378801200517543699682145397290477116833556160840679858071914779606603850328519291487 5181059221410025623239791785508109934427518278345800105931984091084315817654954493078208955328684757879695026597884063930904170674741010288208961226852912112 4576531773420406476654600532720928811512956866762203606262975639457028788931770701415039760440969703318197540927653905358081325333144429208382685527410038101.
Definition job_p521_T : ecjob := ec_job 18 6864797660130609714981900799081393217269435300143305409394463459185543183397656052122559640661454554977296311391480858037121987999716643812574028291115057151 274877906944 6864797660130609714981900799081393217269435300143305409394463459185543183397656052122559640661454554977296311391480858037121987999716643812574028291115057148 1093849038073734274511112390766805569936207598951683748994586394495953116150735016013708737573759623248592132296706313309438452531591012912142327488478985984 3272445144786979836832049713799473851521209570676705985154696054115223131668939609067329419928734309784154532970182349252877987436515477621030846798794115029 6837576647799316067119330719965770347825547349379157933006194905270851670833233865575820692115600110447604635634878589709462914482426166204710583103356527365 6864797660130609714981900799081393217269435300143305409394463459185543183397655394245057746333217197532963996371363321113864768612440380340372808892707005449 2388482724411707361471533760681262103446790509432677360902870447956633440843449292686791696800354456568586165319751888601793205293880854985467131982777859635 5181059221410025623239791785508109934427518278345800105931984091084315817654954493078208955328684757879695026597884063930904170674741010288208961226852912112 4576531773420406476654600532720928811512956866762203606262975639457028788931770701415039760440969703318197540927653905358081325333144429208382685527410038101.
(** inverses for 2 S, d S, e T; e T; the slopes of S + T, S - T, d S + e T *)
Definition p521_w : Z * Z * Z * (Z * Z) * Z * Z * Z :=
  (1709430314469105850691000623790970258007159670457204173051459448408547323317613626648948354761794047990203784456149333396199358419325538408305812447919722050, 977819099858415314814260197185472000325101126107668439978985591088780878054430021992487801187713739662735507012514871232313480337437950207156271660910932275, 4930647972479535014552340052567526015998528071426105187416058153901337062490981561674671312190694204366547392172764438701609645645529223784546282486882699530, (3535543244022454510260331585151748686129912929629958929323237102871413992038729724499046310626947370219170782491728728806259053180778939202577379590497024114, 3087976145486704689560219970665242750901170187188547505081064115612468371263564842088432573345900309520596916035509912405362005243267157265572502230681995075), 1998545386756783933387488029476798639960992421416109228221090432270877748302367326154668677520923152315865785538399571782850869698019873092628833728405720878, 5908867371819960051257663192313900228298791150259150882097121430448515876057690241832641951094569004471043677053016256918821821312614744036849201766046097162, 829250701246788265898243452461204445291313839308043724833450283334318406397161234619936320845928387740843489670737025329079894247087113357763629656360315587).
(** the coefficient of the short Weierstrass form and the shift of x *)
Definition c25519_form : nat * Z * Z * Z := (9%nat, 387620798464, 19298681539552699237261830834781317975544997444273427339909597334573241639236, 19298681539552699237261830834781317975544997444273427339909597334652188435537).
(** inverses and y-coordinates for d_A G, d_B G, d_A (d_B G) *)
Definition c25519_w : (Z * Z) * (Z * Z) * (Z * Z) :=
  ((41358575141628936000105826611842331805774059532890778758633296502383708194679, 596277006423972144452189334585215580329292957241896763001686910682243801930), (2971815682666744366750663835525218310340398107211611644009236851108066112316, 911436038527796422540209256002562088425874655738747209886946967007761952960), (54835372550239466942234592868939857857066677270562581004517062634696785755353, 42135906049780004782805881423174894330419159012487636172067560826343912093714)).
