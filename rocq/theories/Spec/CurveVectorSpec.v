(** Known answers in the curve tests.  Generated by tools/gen_vectors.py. *)
From Coq Require Import ZArith List.
Import ListNotations.
Local Open Scope Z_scope.

(** ecc/test/test_sec256k1.py:28-66: m, and the coordinates of m G *)
Definition secp256k1_vectors : list (Z * (Z * Z)) := [
  (77059549740374936337596179780007572461065571555507600191520924336939429631266, (23960696573610029253367988531088137163395307586261939660421638862381187549638, 5176714262835066281222529495396963740342889891785920566957581938958806065714));
  (57068342215440698567564368834304843313972799247029998661603969804853926820579, (97381489460221176071971271097479194955664877917612013620814671182658701100405, 8644127078125557109042367859499327942752586340383139995316809958114791119229));
  (45404262439013082639639640676052574300732448114466951153301639213084959216733, (105245421700792021234289138294635169796867798016879069377770000564698397189935, 87912451629392408429807119170655334655993651462750733819149454078892301242081));
  (25064893971726669359337550616456557257214342170707064423873020557698416954604, (9288414285729841455208842225491029580850100863052183545480419518604994522017, 18763070731291120415056508835660760524252274437443221864413213141042093881730));
  (12273211894667011703512737764620331640061282752752292412867254036384822317497, (111827987830878652553598447398578243804262480133377986425356808665769494929107, 110494475877289523175623430646824078985342434594109626984398695902337413221342))].
(** ecc/test/test_sec256k1.py:68-78: the secret key and the x-coordinate of the public key *)
Definition bip32_vector : Z * Z := (105366245268346348601399826821003822098691517983742654654633135381666943167285, 26070491525757212273923430130929023832023083399656255554599993618152067728834).
(** ecc/test/test_nist_curves.py:22-67: d, e; d S, d S + e T *)
Definition p192_scalar : Z * Z * (Z * Z) * (Z * Z) :=
  (4108059114144203890209012299831570373806242553631966262510,
   4824127346165818618562330903884116653311202509745852871356,
   (776869029487597406993006453288107978891554090426994486577, 2352649282612884123934831611790818939149682285969215126278),
   (39786866609245082371772779541859439402855864496422607838, 547967566579883709478937502153554894699060378424501614148)).
(** ecc/test/test_nist_curves.py:84-126: S, T; S + T, S - T, 2 S *)
Definition p521_points : (Z * Z) * (Z * Z) * (Z * Z) * (Z * Z) * (Z * Z) :=
  ((6298662291797597455690424015484694729934739924258269207282256796654663457328131424431164751951136256517278028595707590389210532306396886103392981032134623668, 4353738610347946608426792277824204199293251581155193185744917590170187881415595621178782174392578394291724427970699014037986967831774135041879292583939676195),
   (3272445144786979836832049713799473851521209570676705985154696054115223131668939609067329419928734309784154532970182349252877987436515477621030846798794115029, 6837576647799316067119330719965770347825547349379157933006194905270851670833233865575820692115600110447604635634878589709462914482426166204710583103356527365),
   (3945817275303372835061611517163695661138751516365878167904343228042357207513499966884979304221092323287101958990319287179954720158124825676610075596398909929, 1322857172946374883190425618771653850599399337891682578100121118402276271579254324948569667898676732405000107500425170289495924816009002875026615661620603989),
   (3984460563570088507103141412991100090849892799183792157682997864238585936443439439906948734906486467841393150836071023199227192662032566848948208516982883533, 4845153326144879144296929487748670107480476717159320240300958366346986382214971724214948908187854125626130049799893468880008191901342056939099634082337464935),
   (3975062381064225480574098685521977536038322097599329938779879404933190756769282040349324142327608943288400218065083035492863386391810636410549184121094237126, 5475657578453756240260133840068900684884763004547062714625687949872864918166460799367981360733022202781327245597758551064385199362201914511669512056775423299)).
(** ecc/test/test_nist_curves.py:84-126: d, e; d S, d S + e T *)
Definition p521_scalar : Z * Z * (Z * Z) * (Z * Z) :=
  (6589911711217983778573069477633357728158042172680965023176544155025330858580714983813612606791942793065205275863059605874060770880450379314361467079894228145,
   4181911831981269416356172644541385942225844343101932797409015214375313229505212523787171269748633152878588298057590237947985265681987190725291258965278331619,
   (1953421426470442621175127908579910595115753295475953441048167754517888749470193515243737962476875375071476192850873606070916658618742628469507462988779263419, 4089013307542931896517959004042561972312454331747019008599426079478882447228510735462753012916267465837819004434222633127652386667671808349966574478000887679),
   (2107959292211217366325006629500797925791938696205964597056372330716592288740742242015151987654379328611137342287481965102852833591184243752401697874676180285, 213072210276359788783200291437892703727051498421519023277575236351664969296409578866338818293271364049979364487784950198387335086007766121902297674599028893)).
(** ecc/test/test_curve25519.py:29-38: d_A, d_B, x_A, x_B, x_S *)
Definition curve25519_vector : Z * Z * Z * Z * Z :=
  (41064391395585835474368114493246041522492081331069568852355680125134811285088,
   32503340506761779948245149604890579911991166660799259494501122159506596115040,
   2484434859584545243005116336247546281433254158633728255938761473228843886691,
   50080601337175404084846167548136078322784229319042965711384627732864606072580,
   43996347446287698458624053981209164589421635217280248742073870809665279136939).
