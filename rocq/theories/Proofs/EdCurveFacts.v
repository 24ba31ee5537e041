(** C90: the built-in Edwards and Montgomery classes. *)
From Coq Require Import ZArith List Bool Lia Znumtheory String.
From Verif Require Import Proofs.Tac Proofs.Cong Proofs.Primality Proofs.Fp Proofs.ECGroup Proofs.Curve Proofs.Limbs Proofs.ModRep Proofs.EcCheck Proofs.PrimeChain.
From Verif Require Import Proofs.MontAdd Proofs.MontFacts Proofs.EdwardsFacts Proofs.EdOrder Proofs.EdCerts.
From Verif Require Import Model.Py Model.NumberTheory Model.Ecc Model.Curves Model.EdCurves Spec.CurveSpec Spec.MontgomerySpec Spec.EdwardsSpec.
Import ListNotations.
Local Open Scope Z_scope.

(** ** non-residues, by Euler's criterion *)
Definition nonres_check (k : nat) (p r2 d : Z) : bool :=
  modulus_ok k p r2 && (2 <? p) && inrange p d &&
  let M := make' k p r2 in eqm M (zpow M (conv M k d) ((p - 1) / 2)) (mul M (sub M (m_zs M) (m_one M)) (m_one M)).
Lemma nonres_ok k p r2 d : prime p -> nonres_check k p r2 (d mod p) = true -> forall r, (r ^ 2 - d) mod p <> 0.
Proof.
  intros Hp H r E. unfold nonres_check in H. cbv zeta in H.
  destruct k as [|k]; [unfold modulus_ok in H; cbv zeta in H; rewrite !andb_false_r in H; discriminate|].
  rewrite !andb_true_iff in H. destruct H as (((OK & P2) & Rd) & H). apply inrange_ok in Rd. apply Z.ltb_lt in P2.
  destruct (ok_parts k p r2 OK) as (Hz & _ & HzR & _). set (M := make' (S k) p r2) in *.
  pose proof (rep_conv k p r2 OK p Hp (Z.divide_refl _) (d mod p) ltac:(lia)) as Hd. fold M in Hd.
  pose proof (rep_one k p r2 OK p Hp (Z.divide_refl _)) as One. fold M in One. pose proof (rep_zero k p r2 OK p) as Zero. fold M in Zero.
  assert (HALF : 0 <= (p - 1) / 2) by (apply Z.div_pos; lia).
  pose proof (zpow_ok k p r2 OK p Hp (Z.divide_refl _) _ _ _ HALF Hd) as HP. fold M in HP.
  pose proof (rep_sub k p r2 OK p Hp (Z.divide_refl _) _ _ _ _ _ _ Zero One ltac:(lia) ltac:(lia)) as HM0. fold M in HM0.
  pose proof (rep_mul k p r2 OK p Hp (Z.divide_refl _) _ _ _ _ _ _ HM0 One ltac:(lia) ltac:(lia) ltac:(lia)) as HM. fold M in HM.
  apply (rep_eqm k p r2 OK p Hp (Z.divide_refl _) _ _ _ _ _ _ HP HM) in H; try lia.
  assert (Q : cong p (r ^ 2) (d mod p)). { apply Z.mod_divide in E; [|lia]. destruct E as (c & E). split. rewrite Z.mod_mod by lia. replace (r ^ 2) with (d + c * p) by lia. now rewrite Z.mod_add by lia. }
  assert (OD : p mod 2 = 1).
  { destruct (Z.eq_dec (p mod 2) 1) as [|N]; [assumption|]. assert (B := Z.mod_pos_bound p 2 ltac:(lia)). assert (D : (2 | p)) by (apply Z.mod_divide; lia).
    apply prime_divisors in D; [|exact Hp]. lia. }
  assert (HH : p - 1 = 2 * ((p - 1) / 2)). { assert (B := Z.div_mod (p - 1) 2 ltac:(lia)). assert (C : (p - 1) mod 2 = 0) by (rewrite Zminus_mod, OD; reflexivity). lia. }
  assert (K : cong p (r ^ (p - 1)) (-1)).
  { rewrite HH, Z.pow_mul_r by lia. rewrite Q, H. apply cong_refl_eq. ring. }
  destruct (Z.eq_dec (r mod p) 0) as [R0|R0].
  - assert (K0 : cong p (r ^ (p - 1)) 0). { rewrite HH. replace (2 * ((p - 1) / 2)) with (Z.succ (p - 2)) by lia. rewrite Z.pow_succ_r by lia. assert (cong p r 0) as -> by (split; rewrite R0; symmetry; apply Z.mod_0_l; lia). apply cong_refl_eq. ring. }
    rewrite K0 in K. apply uncong in K. rewrite Z.mod_0_l in K by lia. symmetry in K. apply Z.mod_divide in K; [|lia]. destruct K as (c & K). nia.
  - rewrite (fermat_z p r Hp R0) in K. apply uncong in K. assert (L : (1 - -1) mod p = 0) by (rewrite Zminus_mod, K, Z.sub_diag; apply Z.mod_0_l; lia).
    change (1 - -1) with 2 in L. rewrite Z.mod_small in L; lia.
Qed.

(** ** what a job says about multiples *)
Lemma job_nmul j n : job_ok j n -> let p := e_n j in let A := ECGroup.P (fi p (e_x j)) (fi p (e_y j)) in
  1 <= n /\ nmul p (e_a j) (Z.to_nat n) A = O /\ (forall k, 1 <= k < n -> nmul p (e_a j) (Z.to_nat k) A <> O) /\
  (forall k, nmul p (e_a j) k A = O -> (n | Z.of_nat k)).
Proof.
  intros (Hp & Pn & p3 & _ & _ & NS & ON & N1 & NO & NK). cbv zeta. split; [exact N1|]. set (p := e_n j) in *.
  assert (MI := fun k => multiple_iff p Hp p3 (e_a j) (e_b j) (Some (e_x j, e_y j)) k None ON I). cbn [h] in MI.
  assert (NO' : nmul p (e_a j) (Z.to_nat n) (ECGroup.P (fi p (e_x j)) (fi p (e_y j))) = O) by (symmetry; now apply MI).
  split; [exact NO'|]. split.
  - intros k K E. apply (NK k K). apply MI. now symmetry.
  - intros k E. apply (killed p Hp p3 (e_a j) (e_b j) NS (ECGroup.P (fi p (e_x j)) (fi p (e_y j)))); try assumption; try discriminate.
    + exact (h_on p Hp (e_a j) (e_b j) (Some (e_x j, e_y j)) ON).
    + rewrite zmul_nat by lia. exact NO'.
    + rewrite zmul_nat by lia. now rewrite Nat2Z.id.
Qed.

(** ** Edwards curves *)
Definition z0 (p z : Z) : bool := z mod p =? 0.
Definition ed_check (k : nat) (r2 p d x y : Z) (m : Z * Z * Z * Z) (j : ecjob) : bool :=
  let '(a, b, u, v) := m in
  (e_n j =? p) && inrange p x && inrange p y && negb (z0 p (1 * d)) && negb (z0 p (1 - d)) &&
  z0 p (b * (1 - d) - 4) && z0 p (a * (1 - d) - 2 * (1 + d)) && z0 p (1 * x ^ 2 + y ^ 2 - (1 + d * x ^ 2 * y ^ 2)) && negb (z0 p x) &&
  z0 p (u * (1 - y) - (1 + y)) && z0 p (v * x - u) && z0 p (3 * b * b * e_a j - (3 - a * a)) && z0 p (3 * b * e_x j - (3 * u + a)) && z0 p (b * e_y j - v) &&
  negb (z0 p (1 * x ^ 2 + y - (1 + d * x ^ 2 * y ^ 2))) && nonres_check k p r2 (d mod p).
Lemma ed_check_ok k r2 p d x y m j n : job_ok j n -> ed_check k r2 p d x y m j = true ->
  prime p /\ prime n /\ (forall r, (r ^ 2 - d) mod p <> 0) /\ 0 <= x < p /\ 0 <= y < p /\ on_edwards p 1 d x y /\ ed_order p 1 d x y n /\
  (forall i, ed_multiple p 1 d x y i 0 1 -> (n | Z.of_nat i)) /\ te_point p 1 d x y = Raise AssertionError.
Proof.
  intros J H. destruct m as [[[a b] u] v]. unfold ed_check, z0 in H. rewrite !andb_true_iff, !negb_true_iff, !Z.eqb_eq, !Z.eqb_neq in H.
  destruct H as (((((((((((((((<- & Rx) & Ry) & ND) & NED) & EB) & EA) & ON) & Nx) & EU) & EV) & EW) & E1) & E2) & NT) & NR).
  apply inrange_ok in Rx, Ry. destruct (job_nmul j n J) as (N1 & NO & NK & KD). cbv zeta in *. destruct J as (Hp & Pn & p3 & Rw & _ & _). set (p := e_n j) in *.
  assert (NR' := nonres_ok k p r2 d Hp NR).
  assert (C : forall x1 y1 x2 y2, on_edwards p 1 d x1 y1 -> on_edwards p 1 d x2 y2 -> ed_defined p d x1 y1 x2 y2).
  { intros x1 y1 x2 y2. apply (c88_complete p 1 d 1 x1 y1 x2 y2 Hp); [lia| |exact NR']. change (1 ^ 2 - 1) with 0. apply Z.mod_0_l. lia. }
  assert (OE : on_edwards p 1 d x y) by exact ON.
  split; [exact Hp|]. split; [exact Pn|]. split; [exact NR'|]. split; [exact Rx|]. split; [exact Ry|]. split; [exact OE|]. split; [|split].
  - apply (ed_order_cert p Hp p3 1 d NED a b EB EA x y u v (e_a j) (e_x j) (e_y j) n); assumption.
  - intros i M. apply KD. destruct (em_multiple p Hp p3 1 d NED a b EB EA _ _ _ _ _ OE M) as (_ & E).
    rewrite (em_zero p a b), (em_M p Hp p3 1 d NED a b EB EA x y u v OE Nx EU EV), (M_cert p Hp p3 a b (NB p Hp p3 1 d b EB) u v (e_x j) (e_y j) E1 E2),
      (wA_cert p Hp p3 a b (NB p Hp p3 1 d b EB) (e_a j) Rw EW) in E. now symmetry.
  - rewrite te_point_dec. destruct (Z.eqb_spec ((1 * x ^ 2 + y - (1 + d * x ^ 2 * y ^ 2)) mod p) 0) as [E|_]; [contradiction|reflexivity].
Qed.
(** ** Montgomery curves *)
Definition mg_check (p a x y : Z) (j : ecjob) : bool :=
  (e_n j =? p) && inrange p x && inrange p y && negb (z0 p (a * a - 4)) && z0 p (1 * y * y - (x * x * x + a * x * x + x)) &&
  z0 p (3 * 1 * 1 * e_a j - (3 - a * a)) && z0 p (3 * 1 * e_x j - (3 * x + a)) && z0 p (1 * e_y j - y).
Lemma mg_check_ok p a x y j n : job_ok j n -> mg_check p a x y j = true ->
  prime p /\ prime n /\ (a * a - 4) mod p <> 0 /\ mg_point p a x y = Ok (x, y) /\ on_mg p a 1 (Some (x, y)) /\ mg_order p a 1 (Some (x, y)) n.
Proof.
  intros J H. unfold mg_check, z0 in H. rewrite !andb_true_iff, !negb_true_iff, !Z.eqb_eq, !Z.eqb_neq in H.
  destruct H as (((((((<- & Rx) & Ry) & NA) & ON) & EW) & E1) & E2).
  apply inrange_ok in Rx, Ry. destruct (job_nmul j n J) as (N1 & NO & NK & _). cbv zeta in *. destruct J as (Hp & Pn & p3 & Rw & _ & _). set (p := e_n j) in *.
  assert (NB : 1 mod p <> 0) by (rewrite Z.mod_small; lia). assert (OM : on_mg p a 1 (Some (x, y))) by (split; [exact Rx|]; split; [exact Ry|exact ON]).
  split; [exact Hp|]. split; [exact Pn|]. split; [exact NA|]. split; [|split; [exact OM|]].
  - apply (mg_point_ok p Hp p3). now rewrite pt_of_red.
  - now apply (mg_order_cert p Hp p3 a 1 NB (e_a j) (e_x j) (e_y j) x y n).
Qed.
(** at most one a for a point with x <> 0 *)
Lemma mg_a_unique p a a' x y : prime p -> 3 < p -> 0 <= a < p -> 0 <= a' < p -> x mod p <> 0 -> mg_point p a x y = Ok (x, y) -> mg_point p a' x y = Ok (x, y) -> a = a'.
Proof.
  intros Hp p3 Ra Ra' Nx H H'. apply (point_on p a x y Hp p3) in H. apply (point_on p a' x y Hp p3) in H'. destruct H as (_ & _ & H), H' as (_ & _ & H'). cbn [fst snd] in *.
  set (u := x mod p) in *. set (v := y mod p) in *.
  assert (E : ((a - a') * (u * u)) mod p = 0).
  { replace ((a - a') * (u * u)) with ((1 * v * v - (u * u * u + a' * u * u + u)) - (1 * v * v - (u * u * u + a * u * u + u))) by ring. rewrite Zminus_mod, H, H'. reflexivity. }
  apply Z.mod_divide in E; [|lia]. apply prime_mult in E; [|exact Hp].
  assert (U : ~ (p | u)). { intros D. apply Nx. apply Z.mod_divide in D; [|lia]. unfold u in D. now rewrite Z.mod_mod in D by lia. }
  destruct E as [E|E]; [|apply prime_mult in E; [|exact Hp]; tauto].
  destruct E as (c & E). assert (c = 0) by nia. lia.
Qed.

(** ** the classes *)
Definition ed_good (p d x y n h : Z) : Prop :=
  prime p /\ prime n /\ (forall r, (r ^ 2 - d) mod p <> 0) /\ 0 <= x < p /\ 0 <= y < p /\ on_edwards p 1 d x y /\ ed_order p 1 d x y n /\ (n * h - p - 1) ^ 2 <= 4 * p.
Lemma ed_class p d x y n h m j : job_ok j n -> ed_check (e_k j) (e_r2 j) p d x y m j && ((n * h - p - 1) ^ 2 <=? 4 * p) = true -> ed_good p d x y n h.
Proof.
  intros J H. apply andb_true_iff in H as (H & HS). apply Z.leb_le in HS. destruct (ed_check_ok _ _ _ _ _ _ _ _ _ J H) as (A1 & A2 & A3 & A4 & A5 & A6 & A7 & _). unfold ed_good. auto 10.
Qed.
Local Open Scope string_scope.
Ltac attrs := repeat (split; [vm_compute; reflexivity|]).
Lemma c90_edwards : forall c, In c [cls_E382; cls_Curve3617; cls_E521] -> exists p d x y n h,
  int_attr c "p" = Ok p /\ int_attr c "a" = Ok 1 /\ int_attr c "d" = Ok d /\ int_attr c "xG" = Ok x /\ int_attr c "yG" = Ok y /\ int_attr c "n" = Ok n /\ int_attr c "h" = Ok h /\
  prime p /\ prime n /\ (forall r, (r ^ 2 - d) mod p <> 0) /\ 0 <= x < p /\ 0 <= y < p /\ on_edwards p 1 d x y /\ ed_order p 1 d x y n /\ (n * h - p - 1) ^ 2 <= 4 * p.
Proof.
  intros c H. cbn [In] in H. destruct H as [<-|[<-|[<-|[]]]]; do 6 eexists; attrs.
  - apply (ed_class _ _ _ _ _ _ map_E382 job_E382 order_E382). vm_cast_no_check (eq_refl true).
  - apply (ed_class _ _ _ _ _ _ map_Curve3617 job_Curve3617 order_Curve3617). vm_cast_no_check (eq_refl true).
  - apply (ed_class _ _ _ _ _ _ map_E521 job_E521 order_E521). vm_cast_no_check (eq_refl true).
Qed.
(** the attribute n is not the order, the attribute q is *)
Lemma c90_gost_refuted : exists p d x y n q h, let c := cls_GOSTmsg05975te in
  int_attr c "p" = Ok p /\ int_attr c "a" = Ok 1 /\ int_attr c "d" = Ok d /\ int_attr c "xG" = Ok x /\ int_attr c "yG" = Ok y /\ int_attr c "n" = Ok n /\ int_attr c "q" = Ok q /\ int_attr c "h" = Ok h /\
  prime p /\ prime n /\ (forall r, (r ^ 2 - d) mod p <> 0) /\ 0 <= x < p /\ 0 <= y < p /\ on_edwards p 1 d x y /\
  ~ ed_multiple p 1 d x y (Z.to_nat n) 0 1 /\ prime q /\ ed_order p 1 d x y q /\ (q * h - p - 1) ^ 2 <= 4 * p.
Proof.
  do 7 eexists. cbv zeta. attrs.
  match goal with |- prime ?p /\ prime ?n /\ (forall r, (r ^ 2 - ?d) mod _ <> 0) /\ 0 <= ?x < _ /\ 0 <= ?y < _ /\ _ /\ _ /\ prime ?q /\ _ =>
    pose proof (ed_check_ok (e_k job_GOSTmsg05975te) (e_r2 job_GOSTmsg05975te) p d x y map_GOSTmsg05975te job_GOSTmsg05975te q order_GOSTmsg05975te ltac:(vm_cast_no_check (eq_refl true))) as (A1 & A2 & A3 & A4 & A5 & A6 & A7 & A8 & _);
    assert (ND : n mod q <> 0) by (vm_compute; discriminate); assert (NP : 0 <= n) by (vm_compute; discriminate); assert (QP : q <> 0) by (vm_compute; discriminate)
  end.
  split; [exact A1|]. split; [exact prime_n_GOSTmsg05975te|]. split; [exact A3|]. split; [exact A4|]. split; [exact A5|]. split; [exact A6|].
  split. { intros M. apply A8 in M. rewrite Z2Nat.id in M by exact NP. apply ND. apply Z.mod_divide; [exact QP|exact M]. }
  split; [exact A2|]. split; [exact A7|]. vm_compute. discriminate.
Qed.
(** d = a = 1: the curve is a union of four lines, and the generator is not on it *)
Lemma c90_ed25519_refuted : exists p x y, let c := cls_Ed25519 in
  int_attr c "p" = Ok p /\ int_attr c "a" = Ok 1 /\ int_attr c "d" = Ok 1 /\ int_attr c "xG" = Ok x /\ int_attr c "yG" = Ok y /\ int_attr cls_Curve25519 "xG" = Ok x /\ int_attr cls_Curve25519 "yG" = Ok y /\
  prime p /\ (forall u v, on_edwards p 1 1 u v <-> u mod p = 1 \/ u mod p = p - 1 \/ v mod p = 1 \/ v mod p = p - 1) /\ ~ on_edwards p 1 1 x y.
Proof.
  do 3 eexists. cbv zeta. attrs.
  assert (Hp : prime (2 ^ 255 - 19)) by exact (proj1 order_Curve25519). change (2 ^ 255 - 19) with 57896044618658097711785492504343953926634992332820282019728792003956564819949 in Hp.
  split; [exact Hp|]. split; [|vm_compute; discriminate].
  set (p := 57896044618658097711785492504343953926634992332820282019728792003956564819949) in *. assert (P2 : 2 < p) by reflexivity. clearbody p.
  assert (K : forall w, (p | (w - 1) * (w + 1)) <-> w mod p = 1 \/ w mod p = p - 1).
  { intros w. split.
    - intros D. apply prime_mult in D; [|exact Hp]. destruct D as [(c & D)|(c & D)]; [left|right].
      + replace w with (1 + c * p) by lia. rewrite Z.mod_add by lia. apply Z.mod_small. lia.
      + replace w with (p - 1 + (c - 1) * p) by lia. rewrite Z.mod_add by lia. apply Z.mod_small. lia.
    - assert (DM := Z.div_mod w p ltac:(lia)). intros [E|E]; rewrite E in DM.
      + exists (w / p * (w + 1)). rewrite DM at 1. ring.
      + exists ((w / p + 1) * (w - 1)). rewrite DM at 2. ring. }
  intros u v. unfold on_edwards. replace (1 * u ^ 2 + v ^ 2 - (1 + 1 * u ^ 2 * v ^ 2)) with (- ((u - 1) * (u + 1) * ((v - 1) * (v + 1)))) by ring.
  rewrite Z.mod_divide, Z.divide_opp_r by lia. split.
  - intros D. apply prime_mult in D; [|exact Hp]. rewrite !K in D. tauto.
  - intros H. assert (D : (p | (u - 1) * (u + 1)) \/ (p | (v - 1) * (v + 1))) by (rewrite !K; tauto). destruct D as [D|D]; [apply Z.divide_mul_l|apply Z.divide_mul_r]; exact D.
Qed.
Lemma c90_montgomery : forall c, In c [cls_Curve25519; cls_M383] -> exists p a x y n h,
  int_attr c "p" = Ok p /\ int_attr c "a" = Ok a /\ int_attr c "xG" = Ok x /\ int_attr c "yG" = Ok y /\ int_attr c "n" = Ok n /\ int_attr c "h" = Ok h /\
  prime p /\ prime n /\ (a * a - 4) mod p <> 0 /\ mg_generator c = Ok (x, y) /\ on_mg p a 1 (Some (x, y)) /\ mg_order p a 1 (Some (x, y)) n /\ (n * h - p - 1) ^ 2 <= 4 * p.
Proof.
  assert (K : forall c p a x y n h j, job_ok j n -> mg_check p a x y j && ((n * h - p - 1) ^ 2 <=? 4 * p)%Z = true -> mg_generator c = mg_point p a x y ->
    prime p /\ prime n /\ (a * a - 4) mod p <> 0 /\ mg_generator c = Ok (x, y) /\ on_mg p a 1 (Some (x, y)) /\ mg_order p a 1 (Some (x, y)) n /\ (n * h - p - 1) ^ 2 <= 4 * p).
  { intros c p a x y n h j J H E. apply andb_true_iff in H as (H & HS). apply Z.leb_le in HS. rewrite E. destruct (mg_check_ok _ _ _ _ _ _ J H) as (A1 & A2 & A3 & A4 & A5 & A6). auto 10. }
  intros c H. cbn [In] in H. destruct H as [<-|[<-|[]]]; do 6 eexists; attrs.
  - apply (K _ _ _ _ _ _ _ job_Curve25519 order_Curve25519); [vm_cast_no_check (eq_refl true)|reflexivity].
  - apply (K _ _ _ _ _ _ _ job_M383 order_M383); [vm_cast_no_check (eq_refl true)|reflexivity].
Qed.
(** M511 has no coefficient; exactly one makes the generator a point, and then n is its order *)
Lemma c90_m511_refuted : exists p x y n h, let c := cls_M511 in
  int_attr c "p" = Ok p /\ int_attr c "a" = Raise AttributeError /\ int_attr c "xG" = Ok x /\ int_attr c "yG" = Ok y /\ int_attr c "n" = Ok n /\ int_attr c "h" = Ok h /\
  mg_generator c = Raise AttributeError /\ prime p /\ prime n /\ (forall a, 0 <= a < p -> (mg_point p a x y = Ok (x, y) <-> a = 530438)) /\
  (530438 * 530438 - 4) mod p <> 0 /\ mg_order p 530438 1 (Some (x, y)) n /\ (n * h - p - 1) ^ 2 <= 4 * p.
Proof.
  do 5 eexists. cbv zeta. attrs.
  match goal with |- prime ?p /\ prime ?n /\ (forall a, _ -> (mg_point _ a ?x ?y = _ <-> _)) /\ _ =>
    pose proof (mg_check_ok p 530438 x y job_M511 n order_M511 ltac:(vm_cast_no_check (eq_refl true))) as (A1 & A2 & A3 & A4 & A5 & A6);
    assert (P3 : 3 < p) by reflexivity; assert (PA : 530438 < p) by reflexivity; assert (NX : x mod p <> 0) by (vm_compute; discriminate)
  end.
  split; [exact A1|]. split; [exact A2|]. split.
  { intros a Ra. split; [|intros ->; exact A4]. intros E. apply (mg_a_unique _ a 530438 _ _ A1 P3 Ra ltac:(split; [discriminate|exact PA]) NX E A4). }
  split; [exact A3|]. split; [exact A6|]. vm_compute. discriminate.
Qed.
(** no class can be called, and no Edwards generator is accepted *)
Lemma c90_construct_refuted : exists fuel0, forall fuel, (fuel0 <= fuel)%nat ->
  (forall c, In c (twistedEdwardsCurves ++ edwardsCurves) -> te_class_init fuel c = Raise AssertionError) /\
  (forall c, In c montgomeryCurves -> mg_class_init fuel c = if String.eqb (cls_name c) "M511" then Raise AttributeError else Raise AssertionError).
Proof.
  exists 600%nat. intros fuel F.
  assert (CS : forall p, 0 <= p < 2 ^ 600 -> exists s, coord_size fuel p = Ok s).
  { intros p P. apply coord_fuel; [lia|]. destruct (Z.eq_dec p 0) as [->|N]; [cbn; lia|]. assert (Z.log2 p < 600) by (apply Z.log2_lt_pow2; lia). lia. }
  split; intros c I.
  - assert (T : forallb (fun c => match int_attr c "p", int_attr c "d", int_attr c "a" with Ok p, Ok d, Ok a => (0 <=? p)%Z && (p <? 2 ^ 600)%Z && match te_identity p a d with Raise AssertionError => true | _ => false end | _, _, _ => false end) (twistedEdwardsCurves ++ edwardsCurves)%list = true) by (vm_compute; reflexivity).
    rewrite forallb_forall in T. specialize (T c I). unfold te_class_init. destruct (int_attr c "p") as [p|]; [|discriminate T]. destruct (int_attr c "d") as [d|]; [|discriminate T]. destruct (int_attr c "a") as [a|]; [|discriminate T].
    rewrite !andb_true_iff, Z.leb_le, Z.ltb_lt in T. destruct T as (T1 & T2). destruct (CS p T1) as (s & CE). cbn [bind]. rewrite CE. cbn [bind]. destruct (te_identity p a d) as [|[]]; try discriminate T2. reflexivity.
  - assert (T : forallb (fun c => match int_attr c "p" with Ok p => (0 <=? p)%Z && (p <? 2 ^ 600)%Z &&
       match (do a <- int_attr c "a"; do i <- mg_identity p a; Ok i), String.eqb (cls_name c) "M511" with Raise AttributeError, true => true | Raise AssertionError, false => true | _, _ => false end | _ => false end) montgomeryCurves = true) by (vm_compute; reflexivity).
    rewrite forallb_forall in T. specialize (T c I). unfold mg_class_init. destruct (int_attr c "p") as [p|]; [|discriminate T].
    rewrite !andb_true_iff, Z.leb_le, Z.ltb_lt in T. destruct T as (T1 & T2). destruct (CS p T1) as (s & CE). cbn [bind]. rewrite CE. cbn [bind]. destruct (int_attr c "a") as [a|e]; cbn [bind] in *.
    + destruct (mg_identity p a) as [i|e]; cbn [bind] in *; [discriminate T2|]. destruct e, (String.eqb (cls_name c) "M511"); try discriminate T2; reflexivity.
    + destruct e, (String.eqb (cls_name c) "M511"); try discriminate T2; reflexivity.
Qed.
Lemma c90_generator_refuted : forall c, In c (twistedEdwardsCurves ++ edwardsCurves) -> te_generator c = Raise AssertionError.
Proof.
  assert (T : forallb (fun c => match te_generator c with Raise AssertionError => true | _ => false end) (twistedEdwardsCurves ++ edwardsCurves)%list = true) by (vm_compute; reflexivity).
  rewrite forallb_forall in T. intros c I. specialize (T c I). clear I. destruct (te_generator c) as [|[]]; try discriminate T. reflexivity.
Qed.
Lemma c90_lists : map cls_name twistedEdwardsCurves = ["GOSTmsg05975te"] /\ map cls_name edwardsCurves = ["Curve3617"; "E382"; "E521"; "Ed25519"] /\ map cls_name montgomeryCurves = ["Curve25519"; "M383"; "M511"].
Proof. vm_compute. auto. Qed.
