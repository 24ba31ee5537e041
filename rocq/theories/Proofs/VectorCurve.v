(** Known answers for curve arithmetic: the results of the program are determined by its correctness theorems and compared with the vectors by modular arithmetic. *)
From Coq Require Import ZArith List Bool Lia Znumtheory String.
From Verif Require Import Proofs.Tac Proofs.Cong Proofs.Primality Proofs.NTBasic Proofs.Fp Proofs.ECGroup Proofs.Curve Proofs.CurveProg Proofs.ScalarMul Proofs.CurveFacts Proofs.Limbs Proofs.ModRep Proofs.Jacobian Proofs.EcCheck Proofs.EcTarget Proofs.PrimeChain.
From Verif Require Import Proofs.Montgomery Proofs.Ladder Proofs.MontAdd Proofs.MontFacts Proofs.EdOrder Proofs.EdGroup Proofs.CurveOrder1 Proofs.CurveOrder2 Proofs.CurveOrder5 Proofs.EdCerts Proofs.VectorFacts Proofs.VectorCerts.
From Verif Require Import Model.Py Model.NumberTheory Model.Ecc Model.Curves Spec.CurveSpec Spec.CurveView Spec.MontgomerySpec Spec.VectorSpec Spec.CurveVectorSpec.
Import ListNotations.
Local Open Scope string_scope.
Local Open Scope Z_scope.

(** ** k P = T *)
Definition with_k (j : ecjob) (ds : list digit) (wz : Z) : ecjob := EcJob (e_k j) (e_n j) (e_r2 j) (e_a j) 0 (e_x j) (e_y j) ds wz 0 0.
Definition to_check (j : ecjob) (k wz X Y : Z) : bool := let ds := naf k in (digits_val ds =? k) && ec_to (with_k j ds wz) X Y.
Definition job_curve (j : ecjob) (n : Z) : curve := Curve (e_n j) (e_a j) (e_b j) n.
Lemma job_elliptic j n : job_ok j n -> elliptic (job_curve j n).
Proof. intros (Pp & Pn & P3 & Ra & Rb & NS & ON & OR). split; [exact Pp|]. split; [exact P3|exact NS]. Qed.
Lemma job_valid j n : job_ok j n -> valid (job_curve j n) (Aff (e_x j) (e_y j)).
Proof. intros (Pp & Pn & P3 & Ra & Rb & NS & (Rx & Ry & E) & OR). split; assumption. Qed.
Lemma prime_not4 n : prime n -> n mod 4 <> 0.
Proof.
  intros Pn E. assert (n2 := prime_ge_2 _ Pn). apply Z.mod_divide in E; [|lia]. assert (D : (2 | n)) by (apply Z.divide_trans with 4; [exists 2; reflexivity|exact E]).
  apply prime_div_prime in D; [|exact prime_2|exact Pn]. apply Z.divide_pos_le in E; lia.
Qed.
Lemma to_scalar j n k wz X Y fuel : job_ok j n -> to_check j k wz X Y = true -> (mul_fuel (job_curve j n) <= fuel)%nat ->
  scalar_multiple fuel (job_curve j n) (Aff (e_x j) (e_y j)) k = Ok (Aff X Y) /\ valid (job_curve j n) (Aff X Y) /\ 0 <= Y < e_n j.
Proof.
  intros J H F. assert (HE := job_elliptic j n J). assert (V := job_valid j n J). destruct J as (Pp & Pn & P3 & Ra & Rb & NS & ON & OR).
  unfold to_check in H. cbv zeta in H. apply andb_true_iff in H as (HD & H). apply Z.eqb_eq in HD.
  assert (G := h_on (e_n j) Pp (e_a j) (e_b j) _ ON). cbn [h] in G.
  destruct (ec_to_ok (with_k j (naf k) wz) X Y (e_b j) Pp P3 NS G H) as (RX & RY & E). cbn [with_k e_n e_a e_x e_y e_ds] in RX, RY, E. rewrite HD in E.
  assert (Ry : 0 <= e_y j < e_n j) by apply ON.
  assert (D : denotes (job_curve j n) (Aff (e_x j) (e_y j)) = Some (e_x j, e_y j)) by (unfold denotes; cbn [c_p job_curve]; rewrite Z.mod_small by exact Ry; reflexivity).
  destruct (scalar_ok (job_curve j n) HE (Aff (e_x j) (e_y j)) k fuel V) as (S1 & _); [rewrite D; exact OR|exact F|].
  destruct (S1 (or_introl (prime_not4 _ Pn))) as (R & E1 & V1 & M1 & R1). clear S1. specialize (R1 Ry). rewrite D in M1.
  assert (OR1 := valid_on (job_curve j n) P3 R V1). apply (zmultiple_iff _ Pp P3 _ (e_b j)) in M1; [|exact ON|exact OR1].
  cbn [c_p c_a job_curve] in M1. cbn [h] in M1. rewrite E in M1.
  assert (RE : R = Aff X Y).
  { destruct R as [|x' y']; [discriminate M1|]. cbn [denotes h job_curve c_p] in M1. cbn [red job_curve c_p] in R1. rewrite Z.mod_small in M1 by exact R1. assert (EX : fi (e_n j) x' = fi (e_n j) X) by congruence. assert (EY : fi (e_n j) y' = fi (e_n j) Y) by congruence. destruct V1 as (RX1 & _). apply fi_inj in EX, EY; try assumption. congruence. }
  subst R. split; [exact E1|]. split; [exact V1|exact RY].
Qed.
(** ** sums *)
Definition chord_check (p x1 y1 x2 y2 l x3 y3 : Z) : bool :=
  negb (x1 =? x2) && ((l * (x2 - x1) - (y2 - y1)) mod p =? 0) && inrange p x3 && inrange p y3 && ((x3 - (l * l - x1 - x2)) mod p =? 0) && ((y3 - (l * (x1 - x3) - y1)) mod p =? 0).
Lemma chord_add c x1 y1 x2 y2 l x3 y3 fuel : elliptic c -> valid c (Aff x1 y1) -> valid c (Aff x2 y2) -> (steps (c_p c) <= fuel)%nat -> chord_check (c_p c) x1 (y1 mod c_p c) x2 (y2 mod c_p c) l x3 y3 = true ->
  add_points fuel c (Aff x1 y1) (Aff x2 y2) = Ok (Aff x3 y3).
Proof.
  intros (Pp & P3 & NS) V1 V2 F H. unfold chord_check in H. rewrite !andb_true_iff, negb_true_iff, Z.eqb_neq, !Z.eqb_eq in H. destruct H as (((((N & EL) & R3) & R4) & E3) & E4). apply inrange_ok in R3, R4.
  destruct (add_ok c Pp P3 fuel F _ _ V1 V2) as (R & EA & VR & SR & RR). specialize (RR ltac:(discriminate) ltac:(discriminate)). rewrite EA. f_equal.
  assert (S : ec_sum (c_p c) (c_a c) (denotes c (Aff x1 y1)) (denotes c (Aff x2 y2)) (Some (x3, y3))) by (apply (sum_chord _ _ _ _ _ _ l); [exact N|exact EL|repeat split; tauto]).
  assert (O1 := valid_on c P3 _ V1). assert (O2 := valid_on c P3 _ V2). assert (OR := valid_on c P3 _ VR).
  destruct (sum_h (c_p c) Pp P3 (c_a c) (c_b c) _ _ _ O1 O2 S) as (O3 & E). destruct (sum_h (c_p c) Pp P3 (c_a c) (c_b c) _ _ _ O1 O2 SR) as (_ & E').
  assert (K : denotes c R = Some (x3, y3)) by (apply (h_inj (c_p c) (c_a c) (c_b c)); congruence).
  destruct R as [|x y]; [discriminate K|]. cbn in RR. cbn [denotes] in K. rewrite Z.mod_small in K by exact RR. congruence.
Qed.
Lemma chord_sub c x1 y1 x2 y2 l x3 y3 fuel : elliptic c -> valid c (Aff x1 y1) -> valid c (Aff x2 y2) -> (steps (c_p c) <= fuel)%nat -> chord_check (c_p c) x1 (y1 mod c_p c) x2 ((- y2) mod c_p c) l x3 y3 = true ->
  sub_points fuel c (Aff x1 y1) (Aff x2 y2) = Ok (Aff x3 y3).
Proof.
  intros HE V1 V2 F H. unfold sub_points. destruct (negate_ok c (proj1 (proj2 HE)) x2 y2 V2) as (-> & V & _). cbn [bind]. now apply (chord_add c _ _ _ _ l).
Qed.
Lemma steps_mul c fuel : (mul_fuel c <= fuel)%nat -> (steps (c_p c) <= fuel)%nat.
Proof. unfold mul_fuel. lia. Qed.
(** ** secp256k1 *)
Definition k1_n : Z := 115792089237316195423570985008687907852837564279074904382605163141518161494337.
Lemma c89_secp256k1 : exists E G, class_curve cls_SECP_256k1 = Ok E /\ generator cls_SECP_256k1 = Ok G /\ exists fuel0, forall fuel, (fuel0 <= fuel)%nat ->
  (forall m X Y, In (m, (X, Y)) secp256k1_vectors -> scalar_multiple fuel E G m = Ok (Aff X Y)) /\
  (let '(m, X) := bip32_vector in exists Y, scalar_multiple fuel E G m = Ok (Aff X Y)).
Proof.
  exists (job_curve job_SECP_256k1 k1_n), (Aff (e_x job_SECP_256k1) (e_y job_SECP_256k1)). split; [vm_compute; reflexivity|]. split; [vm_compute; reflexivity|].
  exists (mul_fuel (job_curve job_SECP_256k1 k1_n)). intros fuel F. split.
  - assert (T : forallb (fun v => to_check job_SECP_256k1 (fst (fst v)) (snd v) (fst (snd (fst v))) (snd (snd (fst v)))) (combine secp256k1_vectors secp256k1_w) = true) by (vm_cast_no_check (eq_refl true)).
    assert (L : map fst (combine secp256k1_vectors secp256k1_w) = secp256k1_vectors) by reflexivity.
    intros m X Y I. rewrite <- L in I. apply in_map_iff in I as ([v w] & E & I). cbn [fst] in E. subst v. rewrite forallb_forall in T. specialize (T _ I). cbn [fst snd] in T.
    exact (proj1 (to_scalar _ k1_n m w X Y fuel order_SECP_256k1 T F)).
  - exists (snd bip32_w). apply (to_scalar _ k1_n _ (fst bip32_w) _ _ fuel order_SECP_256k1); [vm_cast_no_check (eq_refl true)|exact F].
Qed.
(** ** P-192 and P-521 *)
Definition scalars_ok (fuel : nat) (c : curve) (v : (Z * Z) * (Z * Z) * (Z * Z) * (Z * Z) * (Z * Z)) (w : Z * Z * (Z * Z) * (Z * Z)) : Prop :=
  let '((xS, yS), (xT, yT), _, _, (xD, yD)) := v in let '(d, e, (xR, yR), (xJ, yJ)) := w in
  scalar_multiple fuel c (Aff xS yS) 2 = Ok (Aff xD yD) /\ scalar_multiple fuel c (Aff xS yS) d = Ok (Aff xR yR) /\
  (do A <- scalar_multiple fuel c (Aff xS yS) d; do b <- scalar_multiple fuel c (Aff xT yT) e; add_points fuel c A b) = Ok (Aff xJ yJ).
Definition nist_check (jS jT : ecjob) (n : Z) (v : (Z * Z) * (Z * Z) * (Z * Z) * (Z * Z) * (Z * Z)) (w : Z * Z * (Z * Z) * (Z * Z)) (u : Z * Z * Z * (Z * Z) * Z * Z * Z) : bool :=
  let '((xS, yS), (xT, yT), (xA, yA), (xB, yB), (xD, yD)) := v in let '(d, e, (xR, yR), (xJ, yJ)) := w in let '(w2, wd, we, (xE, yE), l1, l2, l3) := u in let p := e_n jS in
  (xS =? e_x jS) && (yS =? e_y jS) && (xT =? e_x jT) && (yT =? e_y jT) && (e_n jT =? p) && (e_a jT =? e_a jS) && (e_b jT =? e_b jS) &&
  to_check jS 2 w2 xD yD && to_check jS d wd xR yR && to_check jT e we xE yE &&
  chord_check p xS (yS mod p) xT (yT mod p) l1 xA yA && chord_check p xS (yS mod p) xT ((- yT) mod p) l2 xB yB && chord_check p xR (yR mod p) xE (yE mod p) l3 xJ yJ.
Definition nist_sums (fuel : nat) (c : curve) (v : (Z * Z) * (Z * Z) * (Z * Z) * (Z * Z) * (Z * Z)) : Prop :=
  let '((xS, yS), (xT, yT), (xA, yA), (xB, yB), _) := v in
  mk_point c xS yS = Ok (Aff xS yS) /\ mk_point c xT yT = Ok (Aff xT yT) /\
  add_points fuel c (Aff xS yS) (Aff xT yT) = Ok (Aff xA yA) /\ sub_points fuel c (Aff xS yS) (Aff xT yT) = Ok (Aff xB yB).
Lemma nist_check_ok jS jT n v w u fuel : job_ok jS n -> job_ok jT n -> nist_check jS jT n v w u = true -> (mul_fuel (job_curve jS n) <= fuel)%nat ->
  nist_sums fuel (job_curve jS n) v /\ scalars_ok fuel (job_curve jS n) v w.
Proof.
  intros JS JT H F. destruct v as [[[[[xS yS] [xT yT]] [xA yA]] [xB yB]] [xD yD]], w as [[[d e] [xR yR]] [xJ yJ]], u as [[[[[[w2 wd] we] [xE yE]] l1] l2] l3].
  unfold nist_check in H. cbv zeta in H. rewrite !andb_true_iff, !Z.eqb_eq in H. destruct H as ((((((((((((-> & ->) & ->) & ->) & En) & Ea) & Eb) & T2) & Td) & Te) & C1) & C2) & C3).
  assert (CT : job_curve jT n = job_curve jS n) by (unfold job_curve; congruence).
  assert (HE := job_elliptic jS n JS). assert (VS := job_valid jS n JS). assert (VT := job_valid jT n JT). rewrite CT in VT.
  destruct (to_scalar _ n _ _ _ _ fuel JS T2 F) as (E2 & _). destruct (to_scalar _ n _ _ _ _ fuel JS Td F) as (Ed & Vd & _).
  destruct (to_scalar _ n _ _ _ _ fuel JT Te) as (Ee & Ve & _); [now rewrite CT|]. rewrite CT in Ee, Ve. assert (P3 := proj1 (proj2 HE)). assert (F' := steps_mul _ _ F). split.
  - split; [now apply mk_ok|]. split; [now apply mk_ok|]. split; [now apply (chord_add _ _ _ _ _ l1)|now apply (chord_sub _ _ _ _ _ l2)].
  - split; [exact E2|]. split; [exact Ed|]. rewrite Ed, Ee. cbn [bind]. now apply (chord_add _ _ _ _ _ l3).
Qed.
Lemma order_p192_S : job_ok job_p192_S 6277101735386680763835789423176059013767194773182842284081. Proof. apply job_check_ok; [exact (proj1 (proj2 order_SECP_192r1))|vm_cast_no_check (eq_refl true)]. Qed.
Lemma order_p192_T : job_ok job_p192_T 6277101735386680763835789423176059013767194773182842284081. Proof. apply job_check_ok; [exact (proj1 (proj2 order_SECP_192r1))|vm_cast_no_check (eq_refl true)]. Qed.
Definition p521_n : Z := 6864797660130609714981900799081393217269435300143305409394463459185543183397655394245057746333217197532963996371363321113864768612440380340372808892707005449.
Lemma order_p521_S : job_ok job_p521_S p521_n. Proof. apply job_check_ok; [exact (proj1 (proj2 order_SECP_521r1))|vm_cast_no_check (eq_refl true)]. Qed.
Lemma order_p521_T : job_ok job_p521_T p521_n. Proof. apply job_check_ok; [exact (proj1 (proj2 order_SECP_521r1))|vm_cast_no_check (eq_refl true)]. Qed.
Lemma c89_p192_scalar : exists E, class_curve cls_NIST_P192 = Ok E /\ exists fuel0, forall fuel, (fuel0 <= fuel)%nat -> scalars_ok fuel E p192_points p192_scalar.
Proof.
  eexists (job_curve job_p192_S _). split; [vm_compute; reflexivity|]. eexists. intros fuel F.
  apply (nist_check_ok _ _ _ p192_points p192_scalar p192_w fuel order_p192_S order_p192_T); [vm_cast_no_check (eq_refl true)|exact F].
Qed.
Lemma c89_p521 : exists E, class_curve cls_NIST_P521 = Ok E /\ exists fuel0, forall fuel, (fuel0 <= fuel)%nat -> nist_sums fuel E p521_points /\ scalars_ok fuel E p521_points p521_scalar.
Proof.
  eexists (job_curve job_p521_S p521_n). split; [vm_compute; reflexivity|]. eexists. intros fuel F.
  apply (nist_check_ok _ _ _ p521_points p521_scalar p521_w fuel order_p521_S order_p521_T); [vm_cast_no_check (eq_refl true)|exact F].
Qed.
(** ** the ladder *)
Definition ladder_check (p a x y k u v : Z) (form : nat * Z * Z * Z) (wz : Z) : bool :=
  let '(lim, r2, w, s) := form in let ds := naf k in
  (k mod 2 ^ 255 =? k) && (digits_val ds =? k) && inrange p w && ((3 * w - (3 - a * a)) mod p =? 0) && ((3 * s - a) mod p =? 0) &&
  inrange p x && inrange p y && ((y * y - (x * x * x + a * x * x + x)) mod p =? 0) && inrange p u && inrange p v && ((v * v - (u * u * u + a * u * u + u)) mod p =? 0) &&
  ec_to (EcJob lim p r2 w 0 ((x + s) mod p) y ds wz 0 0) ((u + s) mod p) v.
Lemma shift_third p a s z : 3 < p -> (3 * s - a) mod p = 0 -> (3 * 1 * ((z + s) mod p) - (3 * z + a)) mod p = 0.
Proof.
  intros p3 ES. apply Z.mod_divide; [lia|]. apply Z.mod_divide in ES; [|lia]. destruct ES as (q & ES). assert (DM := Z.div_mod (z + s) p ltac:(lia)).
  exists (q - 3 * ((z + s) / p)). revert DM. generalize ((z + s) / p) ((z + s) mod p). intros d r DM.
  replace r with (z + s - p * d) by (rewrite DM; ring). rewrite Z.mul_sub_distr_r, <- ES. ring.
Qed.
Lemma ladder_check_ok p a x y k u v form wz : prime p -> 3 < p -> (a * a - 4) mod p <> 0 -> ladder_check p a x y k u v form wz = true -> montgomery_ladder p a k x = u.
Proof.
  intros Hp p3 NA H. destruct form as [[[lim r2] w] s]. unfold ladder_check in H. cbv zeta in H. rewrite !andb_true_iff, !Z.eqb_eq in H. destruct H as (((((((((((K & D) & Rw) & EW) & ES) & Rx) & Ry) & OE) & Ru) & Rv) & OU) & T).
  apply inrange_ok in Rw, Rx, Ry, Ru, Rv. assert (NB : 1 mod p <> 0) by (rewrite Z.mod_1_l; lia).
  assert (OP : on_mg p a 1 (Some (x, y))) by (split; [exact Rx|]; split; [exact Ry|]; replace (1 * y * y) with (y * y) by ring; exact OE).
  assert (OQ : on_mg p a 1 (Some (u, v))) by (split; [exact Ru|]; split; [exact Rv|]; replace (1 * v * v) with (v * v) by ring; exact OU).
  assert (W : wA p a 1 = w) by (apply (wA_cert p Hp p3 a 1 NB); [exact Rw|]; replace (3 * 1 * 1 * w) with (3 * w) by ring; exact EW).
  assert (SH : forall z, (3 * 1 * ((z + s) mod p) - (3 * z + a)) mod p = 0) by (intros z; apply shift_third; [exact p3|exact ES]).
  assert (SY : forall z, (1 * z - z) mod p = 0) by (intros z; replace (1 * z - z) with 0 by ring; apply Z.mod_0_l; lia).
  assert (HP : hm p a 1 (Some (x, y)) = ECGroup.P (fi p ((x + s) mod p)) (fi p y)) by (apply (M_cert p Hp p3 a 1 NB); auto).
  assert (HQ : hm p a 1 (Some (u, v)) = ECGroup.P (fi p ((u + s) mod p)) (fi p v)) by (apply (M_cert p Hp p3 a 1 NB); auto).
  assert (G := hm_on p Hp p3 a 1 NB _ OP). rewrite HP, W in G. assert (NS := wns p Hp p3 a 1 NB NA). rewrite W in NS.
  destruct (ec_to_ok (EcJob lim p r2 w 0 ((x + s) mod p) y (naf k) wz 0 0) _ _ (wB p a 1) Hp p3 NS G T) as (_ & _ & E). cbn [e_n e_a e_x e_y e_ds] in E. rewrite D in E.
  assert (K0 : 0 <= k) by (rewrite <- K; apply Z.mod_pos_bound; reflexivity).
  destruct (mg_multiple_ex p Hp p3 a 1 NB _ (Z.to_nat k) OP) as (R & MR). destruct (mg_multiple_hm p Hp p3 a 1 NB _ _ _ OP MR) as (OR & ER).
  rewrite HP, W, <- zmul_nat, E, <- HQ in ER by exact K0. apply (hm_inj p Hp p3 a 1 NB) in ER; [|assumption..]. subst R.
  assert (X : x mod p = x) by (apply Z.mod_small; exact Rx). rewrite (ladder_ok p Hp p3 a 1 NB NA x y k (Some (u, v))); [reflexivity|now rewrite X|]. rewrite X, K. exact MR.
Qed.
Lemma ladder_exchange p a x y dA dB xA vA wA' xB vB wB' xS vS wS form : prime p -> 3 < p -> (a * a - 4) mod p <> 0 ->
  ladder_check p a x y dA xA vA form wA' && ladder_check p a x y dB xB vB form wB' && ladder_check p a xB vB dA xS vS form wS = true ->
  montgomery_ladder p a dA x = xA /\ montgomery_ladder p a dB x = xB /\ montgomery_ladder p a dA xB = xS /\ montgomery_ladder p a dB xA = xS.
Proof.
  intros Hp p3 NA H. rewrite !andb_true_iff in H. destruct H as ((HA & HB) & HS). assert (EQ := c70_key_agreement p a x dA dB Hp p3 NA).
  apply (ladder_check_ok _ _ _ _ _ _ _ _ _ Hp p3 NA) in HA. apply (ladder_check_ok _ _ _ _ _ _ _ _ _ Hp p3 NA) in HB. apply (ladder_check_ok _ _ _ _ _ _ _ _ _ Hp p3 NA) in HS.
  split; [exact HA|]. split; [exact HB|]. split; [exact HS|]. rewrite HA, HB, HS in EQ. symmetry. exact EQ.
Qed.
Definition p25519 : Z := 57896044618658097711785492504343953926634992332820282019728792003956564819949.
Lemma c89_curve25519 : let '(dA, dB, xA, xB, xS) := curve25519_vector in exists p a xG, int_attr cls_Curve25519 "p" = Ok p /\ int_attr cls_Curve25519 "a" = Ok a /\ int_attr cls_Curve25519 "xG" = Ok xG /\
  montgomery_ladder p a dA xG = xA /\ montgomery_ladder p a dB xG = xB /\ montgomery_ladder p a dA xB = xS /\ montgomery_ladder p a dB xA = xS.
Proof.
  assert (Hp : prime p25519) by exact (proj1 order_Curve25519). assert (p3 : 3 < p25519) by reflexivity. assert (NA : (486662 * 486662 - 4) mod p25519 <> 0) by (vm_compute; discriminate).
  unfold curve25519_vector. exists p25519, 486662, 9. split; [vm_compute; reflexivity|]. split; [vm_compute; reflexivity|]. split; [vm_compute; reflexivity|].
  apply (ladder_exchange p25519 486662 9 14781619447589544791020593568409986887264606134616475288964881837755586237401 _ _ _ (snd (fst (fst c25519_w))) (fst (fst (fst c25519_w))) _ (snd (snd (fst c25519_w))) (fst (snd (fst c25519_w))) _ (snd (snd c25519_w)) (fst (snd c25519_w)) c25519_form Hp p3 NA).
  vm_cast_no_check (eq_refl true).
Qed.
