(** The parameters of the built-in short Weierstrass curves. *)
From Coq Require Import ZArith List Bool String Znumtheory Lia.
From Verif Require Import Model.Py Model.Ecc Model.Curves Spec.CurveSpec Spec.CurveView Spec.CurveClasses Proofs.CurveTable Proofs.CurveProg Proofs.CurveFacts Proofs.EcCheck Proofs.PrimeChain
  Proofs.CurveOrder1 Proofs.CurveOrder2 Proofs.CurveOrder3 Proofs.CurveOrder4 Proofs.CurveOrder5 Proofs.CurveOrder6 Proofs.CurveOrder7.
Import ListNotations.
Local Open Scope Z_scope.

(** job, order, quotient of n by the order *)
Definition jobs : list (ecjob * Z * Z) := [
  (job_SECP_192r1, 6277101735386680763835789423176059013767194773182842284081, 1);
  (job_SECP_224r1, 26959946667150639794667015087019625940457807714424391721682722368061, 1);
  (job_SECP_256k1, 115792089237316195423570985008687907852837564279074904382605163141518161494337, 1);
  (job_SECP_256r1, 115792089210356248762697446949407573529996955224135760342422259061068512044369, 1);
  (job_WAPI, 4651790315172547324421427488757604246665825709402669598327, 1);
  (job_SWP256CCAO01, 60275702009245096385686171515219896415919644698453424055561665251330296281527, 1);
  (job_SWP256SM2, 115792089210356248756420345214020892766061623724957744567843809356293439045923, 1);
  (job_GOST2001_test, 57896044618658097711785492504343953927082934583725450622380973592137631069619, 1);
  (job_GOST2001_CryptoPro_A, 115792089237316195423570985008687907853073762908499243225378155805079068850323, 1);
  (job_GOST2001_CryptoPro_B, 57896044618658097711785492504343953927102133160255826820068844496087732066703, 1);
  (job_GOST2001_CryptoPro_C, 70390085352083305199547718019018437840920882647164081035322601458352298396601, 1);
  (job_GOST2012_test, 3623986102229003635907788753683874306021320925534678605086546150450856166623969164898305032863068499961404079437936585455865192212970734808812618120619743, 1);
  (job_GOST2012_tc26_A, 13407807929942597099574024998205846127479365820592393377723561443721764030073449232318290585817636498049628612556596899500625279906416653993875474742293109, 1);
  (job_GOST2012_tc26_B, 6703903964971298549787012499102923063739682910296196688861780721860882015036922585419853748190383615062910947743405567510148398820717100282856877776119229, 1);
  (job_GOSTmsg05975sw, 3351951982485649274893506249551461531869841455148098344430890360930441007518362115868300084349221274418848205850841645514717116281909345935543464929272813, 4);
  (job_FRP256v1, 109454571331697278617670725030735128146004546811402412653072203207726079563233, 1);
  (job_SECP_384r1, 39402006196394479212279040100143613805079739270465446667946905279627659399113263569398956308152294913554433653942643, 1);
  (job_SECP_521r1, 6864797660130609714981900799081393217269435300143305409394463459185543183397655394245057746333217197532963996371363321113864768612440380340372808892707005449, 1);
  (job_BrainPoolP160r1, 1332297598440044874827085038830181364212942568457, 1);
  (job_BrainPoolP160t1, 1332297598440044874827085038830181364212942568457, 1);
  (job_BrainPoolP192r1, 4781668983906166242955001894269038308119863659119834868929, 1);
  (job_BrainPoolP192t1, 4781668983906166242955001894269038308119863659119834868929, 1);
  (job_BrainPoolP224r1, 22721622932454352787552537995910923612567546342330757191396560966559, 1);
  (job_BrainPoolP224t1, 22721622932454352787552537995910923612567546342330757191396560966559, 1);
  (job_BrainPoolP256r1, 76884956397045344220809746629001649092737531784414529538755519063063536359079, 1);
  (job_BrainPoolP256t1, 76884956397045344220809746629001649092737531784414529538755519063063536359079, 1);
  (job_BrainPoolP320r1, 1763593322239166354161909842446019520889512772717686063760686124016784784845843468355685258203921, 1);
  (job_BrainPoolP320t1, 1763593322239166354161909842446019520889512772717686063760686124016784784845843468355685258203921, 1);
  (job_BrainPoolP384r1, 21659270770119316173069236842332604979796116387017648600075645274821611501358515537962695117368903252229601718723941, 1);
  (job_BrainPoolP384t1, 21659270770119316173069236842332604979796116387017648600075645274821611501358515537962695117368903252229601718723941, 1);
  (job_BrainPoolP512r1, 8948962207650232551656602815159153422162609644098354511344597187200057010413418528378981730643524959857451398370029280583094215613882043973354392115544169, 1);
  (job_BrainPoolP512t1, 8948962207650232551656602815159153422162609644098354511344597187200057010413418528378981730643524959857451398370029280583094215613882043973354392115544169, 1)].
Lemma jobs_ok : Forall (fun t => job_ok (fst (fst t)) (snd (fst t))) jobs.
Proof.
  unfold jobs.
  apply Forall_cons; [exact order_SECP_192r1|].
  apply Forall_cons; [exact order_SECP_224r1|].
  apply Forall_cons; [exact order_SECP_256k1|].
  apply Forall_cons; [exact order_SECP_256r1|].
  apply Forall_cons; [exact order_WAPI|].
  apply Forall_cons; [exact order_SWP256CCAO01|].
  apply Forall_cons; [exact order_SWP256SM2|].
  apply Forall_cons; [exact order_GOST2001_test|].
  apply Forall_cons; [exact order_GOST2001_CryptoPro_A|].
  apply Forall_cons; [exact order_GOST2001_CryptoPro_B|].
  apply Forall_cons; [exact order_GOST2001_CryptoPro_C|].
  apply Forall_cons; [exact order_GOST2012_test|].
  apply Forall_cons; [exact order_GOST2012_tc26_A|].
  apply Forall_cons; [exact order_GOST2012_tc26_B|].
  apply Forall_cons; [exact order_GOSTmsg05975sw|].
  apply Forall_cons; [exact order_FRP256v1|].
  apply Forall_cons; [exact order_SECP_384r1|].
  apply Forall_cons; [exact order_SECP_521r1|].
  apply Forall_cons; [exact order_BrainPoolP160r1|].
  apply Forall_cons; [exact order_BrainPoolP160t1|].
  apply Forall_cons; [exact order_BrainPoolP192r1|].
  apply Forall_cons; [exact order_BrainPoolP192t1|].
  apply Forall_cons; [exact order_BrainPoolP224r1|].
  apply Forall_cons; [exact order_BrainPoolP224t1|].
  apply Forall_cons; [exact order_BrainPoolP256r1|].
  apply Forall_cons; [exact order_BrainPoolP256t1|].
  apply Forall_cons; [exact order_BrainPoolP320r1|].
  apply Forall_cons; [exact order_BrainPoolP320t1|].
  apply Forall_cons; [exact order_BrainPoolP384r1|].
  apply Forall_cons; [exact order_BrainPoolP384t1|].
  apply Forall_cons; [exact order_BrainPoolP512r1|].
  apply Forall_cons; [exact order_BrainPoolP512t1|].
  apply Forall_nil.
Qed.
Definition is_int (r : res Z) (z : Z) : bool := match r with Ok v => v =? z | Raise _ => false end.
Definition matches (c : curve_class) (t : ecjob * Z * Z) : bool :=
  let '(j, n, m) := t in
  is_int (int_attr c "p") (e_n j) && is_int (int_attr c "b") (e_b j) && is_int (int_attr c "a") (e_a j) && is_int (int_attr c "xG") (e_x j) && is_int (int_attr c "yG") (e_y j) &&
  is_int (int_attr c "n") (m * n) && (m =? if String.eqb (cls_name c) "GOSTmsg05975sw" then 4 else 1).
Definition swb (c : curve_class) : bool :=
  String.eqb (cls_base c) "SmallWeierstrassCurveFp" || String.eqb (cls_base c) "KoblitzCurveFp" ||
  existsb (fun d => String.eqb (cls_base c) (cls_name d) && String.eqb (cls_base d) "SmallWeierstrassCurveFp") module_classes.
Lemma all_match : forallb (fun c => negb (swb c) || existsb (matches c) jobs) module_classes = true.
Proof. vm_cast_no_check (eq_refl true). Qed.
Lemma sw_swb c : short_weierstrass c -> swb c = true.
Proof.
  intros (_ & [H|(d & I & E & F)]); unfold swb.
  - destruct H as [<-|[<-|[]]]; reflexivity.
  - apply orb_true_iff. right. apply existsb_exists. exists d. split; [exact I|]. rewrite E, F, !String.eqb_refl. reflexivity.
Qed.
Lemma is_int_ok r z : is_int r z = true -> r = Ok z.
Proof. destruct r as [v|]; cbn; [|discriminate]. intros H. apply Z.eqb_eq in H. now subst. Qed.
Lemma class_job c : short_weierstrass c -> exists j n m, job_ok j n /\ m = (if String.eqb (cls_name c) "GOSTmsg05975sw" then 4 else 1) /\
  int_attr c "p" = Ok (e_n j) /\ int_attr c "a" = Ok (e_a j) /\ int_attr c "b" = Ok (e_b j) /\ int_attr c "xG" = Ok (e_x j) /\ int_attr c "yG" = Ok (e_y j) /\ int_attr c "n" = Ok (m * n).
Proof.
  intros H. pose proof (proj1 (forallb_forall _ _) all_match c (proj1 H)) as K. cbv beta in K. rewrite (sw_swb c H) in K. cbn [negb orb] in K.
  apply existsb_exists in K as ([[j n] m] & I & K). pose proof (proj1 (Forall_forall _ _) jobs_ok _ I) as J. cbn [fst snd] in J.
  unfold matches in K. rewrite !andb_true_iff in K. destruct K as ((((((K1 & K2) & K3) & K4) & K5) & K6) & K7).
  apply is_int_ok in K1, K2, K3, K4, K5, K6. apply Z.eqb_eq in K7. exists j, n, m. auto 10.
Qed.
Lemma multiple_zero p a P k m : ec_multiple p a P k None -> ec_multiple p a P (m * k) None.
Proof.
  intros H. induction m as [|m IH]; [constructor|]. cbn [Nat.mul].
  assert (K : forall i R, ec_multiple p a P i R -> ec_multiple p a P (i + m * k) R).
  { intros i R M. induction M as [|i R R' M IHM S]; [exact IH|]. cbn [Nat.add]. econstructor; eauto. }
  apply K. exact H.
Qed.
