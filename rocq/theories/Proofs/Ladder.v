(** montgomery_ladder computes the x-coordinate of the multiple. *)
From Coq Require Import Znumtheory Field Setoid Lia List.
From Verif Require Import Proofs.Tac Proofs.Cong Proofs.Primality Proofs.NTBasic Proofs.Fp Proofs.ECGroup Proofs.Curve Proofs.Montgomery.
From Verif Require Import Model.Py Model.NumberTheory Model.Ecc Spec.CurveSpec Spec.MontgomerySpec.
Import ListNotations.
Local Open Scope Z_scope.

Lemma bit_val k j : 0 <= j -> Z.land 1 (Z.shiftr k j) = Z.b2z (Z.testbit k j).
Proof. intros J. rewrite Z.land_comm. change 1 with (Z.ones 1) at 1. rewrite Z.land_ones by lia. rewrite Z.shiftr_div_pow2 by exact J. change (2 ^ 1) with 2. symmetry. now apply Z.testbit_spec'. Qed.
Lemma cswap_bit x y (t : bool) : cswap x y (Z.b2z t) = if t then (y, x) else (x, y).
Proof. unfold cswap. destruct t; cbn [Z.b2z]; f_equal; ring. Qed.
Definition core (a x1 x2 z2 x3 z3 : Z) : (Z * Z) * (Z * Z) :=
  ((((x2 ^ 2 - z2 ^ 2) ^ 2), (4 * x2 * z2 * (x2 ^ 2 + a * x2 * z2 + z2 ^ 2))), ((x2 * x3 - z2 * z3) ^ 2, x1 * (x2 * z3 - z2 * x3) ^ 2)).
Lemma step_eq a x1 k x2 z2 x3 z3 j : 0 <= j -> ladder_step a x1 k (x2, z2, x3, z3) j =
  if Z.testbit k j then let '((xd, zd), (xa, za)) := core a x1 x3 z3 x2 z2 in (xa, za, xd, zd) else let '((xd, zd), (xa, za)) := core a x1 x2 z2 x3 z3 in (xd, zd, xa, za).
Proof. intros J. unfold ladder_step. rewrite bit_val by exact J. rewrite !cswap_bit. destruct (Z.testbit k j); rewrite !cswap_bit; reflexivity. Qed.


Section Ladder.
Context (p : Z) (Hp : prime p) (p3 : 3 < p) (a B : Z) (NB : B mod p <> 0) (NA : (a * a - 4) mod p <> 0).
Local Notation F := (Fp p).
Local Notation i := (fi p).
Let FT := fp_field p Hp.
Add Field Fpfield2 : FT.
Local Notation two := (fadd p (i 1) (i 1)).
Local Notation three := (fadd p (fadd p (i 1) (i 1)) (i 1)).
Ltac fpush := repeat rewrite ?fi_add, ?fi_sub, ?fi_mul, ?fi_opp, ?i2, ?i3.
Lemma two_nz' : two <> i 0. Proof. apply two_nz; assumption. Qed.
Lemma three_nz' : three <> i 0. Proof. rewrite <- i3 by exact Hp. apply fi_nz; [exact Hp|]. rewrite Z.mod_small; lia. Qed.
Lemma B_nz' : i B <> i 0. Proof. now apply fi_nz. Qed.
Lemma i4 : i 4 = fmul p two two. Proof. rewrite <- i2, <- fi_mul by exact Hp. reflexivity. Qed.
Lemma a_ns' : fsub p (fmul p (i a) (i a)) (fmul p two two) <> i 0.
Proof. rewrite <- i4, <- fi_mul, <- fi_sub by exact Hp. now apply fi_nz. Qed.
Definition wA : Z := fv p (wa (i 1) (fadd p) (fmul p) (fsub p) (fdiv p) (i a) (i B)).
Definition wB : Z := fv p (wb (i 1) (fadd p) (fmul p) (fsub p) (fdiv p) (i a) (i B)).
Local Notation M := (M (i 1) (fadd p) (fdiv p) (i a) (i B)).
Local Notation rep := (rep (i 0) (i 1) (fadd p) (fmul p) (fsub p) (fdiv p) (i a) (i B)).
Local Notation gon := (gon p wA wB).
Local Infix "++" := (gadd p wA).
Lemma gon_eq A : gon A = on (fadd p) (fmul p) (wa (i 1) (fadd p) (fmul p) (fsub p) (fdiv p) (i a) (i B)) (wb (i 1) (fadd p) (fmul p) (fsub p) (fdiv p) (i a) (i B)) A.
Proof. unfold Curve.gon, wA, wB. now rewrite !fi_fv. Qed.
Lemma gadd_eq : gadd p wA = add (i 0) (i 1) (fadd p) (fmul p) (fsub p) (fdiv p) (fp_dec p) (wa (i 1) (fadd p) (fmul p) (fsub p) (fdiv p) (i a) (i B)).
Proof. unfold gadd, wA. now rewrite !fi_fv. Qed.
Lemma wns : nonsingular p wA wB.
Proof.
  assert (N := w_ns _ _ _ _ _ _ _ _ FT (fp_dec p) three_nz' (i a) (i B) B_nz' a_ns'). intros E. apply N. clear N. rewrite <- i3, <- i2.
  apply fi_0 in E; [|exact Hp]. rewrite <- E. replace (4 * wA ^ 3 + 27 * wB ^ 2) with (2 * 2 * (wA * wA * wA) + 3 * 3 * 3 * (wB * wB)) by ring.
  unfold wA, wB. rewrite fi_add. rewrite !(fi_mul p), !fi_fv. rewrite i2, i3. reflexivity.
Qed.
(** ** the specification *)
Definition hm (P : ecpoint) : pt (F := F) := match P with None => O | Some (x, y) => M (i x) (i y) end.
Lemma hm_on P : on_mg p a B P -> gon (hm P).
Proof.
  rewrite gon_eq. destruct P as [[x y]|]; [|constructor]. intros (_ & _ & E). apply (fi_diff p Hp) in E. cbn [hm].
  apply (on_M _ _ _ _ _ _ _ _ FT (fp_dec p) three_nz' (i a) (i B) B_nz'). revert E. fpush. unfold f. intros ->. ring.
Qed.
Lemma hm_inj P Q : on_mg p a B P -> on_mg p a B Q -> hm P = hm Q -> P = Q.
Proof.
  destruct P as [[x y]|], Q as [[x' y']|]; cbn [hm]; try (intros; discriminate || reflexivity). intros (A & A' & _) (C & C' & _) E.
  apply (M_inj _ _ _ _ _ _ _ _ FT three_nz' _ _ B_nz') in E as (E1 & E2). apply fi_inj in E1, E2; congruence.
Qed.
Lemma hm_neg P : hm (ec_neg p P) = gopp p (hm P).
Proof. destruct P as [[x y]|]; [|reflexivity]. cbn [hm ec_neg]. rewrite fi_mod. unfold gopp. rewrite (opp_M _ _ _ _ _ _ _ _ FT _ _ B_nz'). now rewrite fi_opp. Qed.
Lemma mg_third_hm l x1 y1 x2 x3 y3 : mg_third p a B l x1 y1 x2 x3 y3 ->
  M (i x3) (i y3) = M (fsub p (fsub p (fsub p (fmul p (fmul p (i B) (i l)) (i l)) (i a)) (i x1)) (i x2))
     (fsub p (fmul p (i l) (fsub p (i x1) (fsub p (fsub p (fsub p (fmul p (fmul p (i B) (i l)) (i l)) (i a)) (i x1)) (i x2)))) (i y1)).
Proof. intros (_ & _ & E1 & E2). apply (fi_diff p Hp) in E1, E2. revert E1 E2. fpush. intros E1 E2. rewrite E1 in E2. now rewrite E1, E2. Qed.
Lemma mg_sum_hm P Q R : on_mg p a B P -> on_mg p a B Q -> mg_sum p a B P Q R -> on_mg p a B R /\ hm P ++ hm Q = hm R.
Proof.
  intros OP OQ S.
  assert (K : hm P ++ hm Q = hm R /\ match R with None => True | Some (x, y) => 0 <= x < p /\ 0 <= y < p end).
  { assert (HP := hm_on P OP). assert (HQ := hm_on Q OQ). destruct S as [Q|P|P|x1 y1 x2 y2 l x3 y3 N L T|x y l x3 y3 N L T].
    - split; [reflexivity|]. destruct Q as [[x y]|]; [|auto]. destruct OQ as (A & C & _). auto.
    - split; [apply gadd_O_r|]. destruct P as [[x y]|]; [|auto]. destruct OP as (A & C & _). auto.
    - split; [|exact I]. rewrite hm_neg. now apply gadd_opp.
    - split; [|destruct T as (A & C & _); auto]. cbn [hm]. rewrite (mg_third_hm _ _ _ _ _ _ T), gadd_eq. apply (chord_M _ _ _ _ _ _ _ _ FT (fp_dec p) three_nz' _ _ B_nz').
      + destruct OP as (A & _), OQ as (A' & _). intros E; apply N; now apply (fi_inj p).
      + apply (fi_diff p Hp) in L. revert L. fpush. auto.
    - split; [|destruct T as (A & C & _); auto]. cbn [hm]. rewrite (mg_third_hm _ _ _ _ _ _ T), gadd_eq. apply (tangent_M _ _ _ _ _ _ _ _ FT (fp_dec p) two_nz' three_nz' _ _ B_nz').
      + destruct OP as (A & A' & _). intros E; apply N; apply (fi_inj p); auto; lia.
      + apply (fi_diff p Hp) in L. revert L. fpush. auto. }
  destruct K as (K & C). split; [|exact K]. destruct R as [[x y]|]; [|exact I]. destruct C as (C & C'). split; [exact C|]. split; [exact C'|].
  assert (W := gon_add p Hp p3 wA wB _ _ (hm_on P OP) (hm_on Q OQ)). rewrite K, gon_eq in W. cbn [hm] in W.
  apply (on_M _ _ _ _ _ _ _ _ FT (fp_dec p) three_nz' (i a) (i B) B_nz') in W. apply (fi_diff p Hp). fpush. rewrite W. unfold f. ring.
Qed.
Lemma mg_third_ex l x1 y1 x2 : exists x3 y3, mg_third p a B l x1 y1 x2 x3 y3.
Proof.
  exists ((B * l * l - a - x1 - x2) mod p), ((l * (x1 - (B * l * l - a - x1 - x2) mod p) - y1) mod p). split; [apply Z.mod_pos_bound; lia|].
  split; [apply Z.mod_pos_bound; lia|]. split; apply (fi_diff p Hp); now rewrite fi_mod.
Qed.
Lemma mg_sum_ex P Q : on_mg p a B P -> on_mg p a B Q -> exists R, mg_sum p a B P Q R.
Proof.
  intros OP OQ. destruct P as [[x1 y1]|]; [|eexists; apply mgs_zero_l]. destruct Q as [[x2 y2]|]; [|eexists; apply mgs_zero_r].
  assert (HP := hm_on _ OP). assert (HQ := hm_on _ OQ). destruct OP as (A & C & _), OQ as (A' & C' & _). rewrite gon_eq in HP, HQ. cbn [hm] in HP, HQ.
  destruct (Z.eq_dec x1 x2) as [<-|N].
  - destruct (same_x_M _ _ _ _ _ _ _ _ FT (fp_dec p) three_nz' _ _ B_nz' _ _ _ HP HQ) as [E|E].
    + apply fi_inj in E; [|assumption..]. subst y2. destruct (Z.eq_dec y1 0) as [->|N0].
      * exists None. replace (Some (x1, 0)) with (ec_neg p (Some (x1, 0))) at 2; [apply mgs_opposite|]. unfold ec_neg. now rewrite Z.mod_0_l by lia.
      * destruct (inv_ex p Hp (2 * B * y1)) with (y := 3 * x1 * x1 + 2 * a * x1 + 1) as (l & L).
        { intros E. apply Z.mod_divide in E; [|lia]. apply prime_mult in E; [|exact Hp]. destruct E as [E|E]; [|apply Z.divide_pos_le in E; lia].
          apply prime_mult in E; [|exact Hp]. destruct E as [E|E]; [apply Z.divide_pos_le in E; lia|]. apply NB. apply Z.mod_divide; [lia|exact E]. }
        destruct (mg_third_ex l x1 y1 x1) as (x3 & y3 & T). exists (Some (x3, y3)). now apply mgs_tangent with (l := l).
    + exists None. replace (Some (x1, y2)) with (ec_neg p (Some (x1, y1))); [apply mgs_opposite|]. cbn. f_equal. f_equal.
      rewrite <- fi_opp in E by exact Hp. apply fi_eq in E. apply cong_range; [|assumption]. now symmetry.
  - destruct (inv_ex p Hp (x2 - x1) (diff_nz p Hp _ _ A A' N) (y2 - y1)) as (l & L). destruct (mg_third_ex l x1 y1 x2) as (x3 & y3 & T).
    exists (Some (x3, y3)). now apply mgs_chord with (l := l).
Qed.
Lemma mg_multiple_hm P k R : on_mg p a B P -> mg_multiple p a B P k R -> on_mg p a B R /\ hm R = nmul p wA k (hm P).
Proof.
  intros OP S. induction S as [|k R R' S (OR & IH) T]; [now split|]. destruct (mg_sum_hm _ _ _ OR OP T) as (OR' & E).
  split; [exact OR'|]. cbn. now rewrite <- E, IH.
Qed.
Lemma mg_multiple_ex P k : on_mg p a B P -> exists R, mg_multiple p a B P k R.
Proof.
  intros OP. induction k as [|k (R & S)]; [eexists; constructor|]. destruct (mg_multiple_hm _ _ _ OP S) as (OR & _).
  destruct (mg_sum_ex R P OR OP) as (R' & T). exists R'. econstructor; eassumption.
Qed.
(** ** the program *)
Section Point.
Context (x y : Z) (OP : on_mg p a B (Some (x mod p, y))) (Nx : x mod p <> 0).
Local Notation A := (hm (Some (x mod p, y))).
Definition inv (m : nat) (st : Z * Z * Z * Z) : Prop :=
  let '(x2, z2, x3, z3) := st in rep (i x2) (i z2) (nmul p wA m A) /\ rep (i x3) (i z3) (nmul p wA (S m) A).
Lemma gA : gon A. Proof. now apply hm_on. Qed.
Lemma gn m : gon (nmul p wA m A). Proof. apply (gon_nmul p Hp p3). exact gA. Qed.
Lemma dbl X Z m : rep (i X) (i Z) (nmul p wA m A) -> rep (i ((X ^ 2 - Z ^ 2) ^ 2)) (i (4 * X * Z * (X ^ 2 + a * X * Z + Z ^ 2))) (nmul p wA (m + m) A).
Proof.
  intros R. rewrite (nmul_add p Hp p3 wA wB wns) by exact gA. assert (G := gn m). rewrite gon_eq in G. rewrite gadd_eq.
  assert (D := rep_double _ _ _ _ _ _ _ _ FT (fp_dec p) two_nz' three_nz' (i a) (i B) B_nz' a_ns' _ _ _ G R).
  replace (i ((X ^ 2 - Z ^ 2) ^ 2)) with (fmul p (fsub p (fmul p (i X) (i X)) (fmul p (i Z) (i Z))) (fsub p (fmul p (i X) (i X)) (fmul p (i Z) (i Z)))).
  2:{ replace ((X ^ 2 - Z ^ 2) ^ 2) with ((X * X - Z * Z) * (X * X - Z * Z)) by ring. now fpush. }
  replace (i (4 * X * Z * (X ^ 2 + a * X * Z + Z ^ 2))) with (fmul p (fmul p (fmul p (fmul p two two) (i X)) (i Z)) (fadd p (fadd p (fmul p (i X) (i X)) (fmul p (fmul p (i a) (i X)) (i Z))) (fmul p (i Z) (i Z)))); [exact D|].
  replace (4 * X * Z * (X ^ 2 + a * X * Z + Z ^ 2)) with (4 * X * Z * (X * X + a * X * Z + Z * Z)) by ring. fpush. now rewrite i4.
Qed.
Lemma dadd X2 Z2 X3 Z3 m : rep (i X2) (i Z2) (nmul p wA m A) -> rep (i X3) (i Z3) (nmul p wA (S m) A) ->
  rep (i ((X2 * X3 - Z2 * Z3) ^ 2)) (i (x * (X2 * Z3 - Z2 * X3) ^ 2)) (nmul p wA (S (m + m)) A).
Proof.
  intros R R'. replace (S (m + m)) with (m + S m)%nat by lia. rewrite (nmul_add p Hp p3 wA wB wns) by exact gA. assert (G := gn m). assert (G' := gn (S m)). assert (GA := gA). rewrite gon_eq in G, G', GA. rewrite gadd_eq.
  assert (D := rep_add _ _ _ _ _ _ _ _ FT (fp_dec p) two_nz' three_nz' (i a) (i B) B_nz' a_ns' (i X2) (i Z2) (i X3) (i Z3) _ _ (i (x mod p)) (i y) G G').
  rewrite <- gadd_eq in D. specialize (D eq_refl GA). rewrite fi_mod in D. specialize (D (fi_nz p Hp x Nx) R R'). rewrite <- gadd_eq.
  replace (i ((X2 * X3 - Z2 * Z3) ^ 2)) with (fmul p (fsub p (fmul p (i X2) (i X3)) (fmul p (i Z2) (i Z3))) (fsub p (fmul p (i X2) (i X3)) (fmul p (i Z2) (i Z3)))).
  2:{ replace ((X2 * X3 - Z2 * Z3) ^ 2) with ((X2 * X3 - Z2 * Z3) * (X2 * X3 - Z2 * Z3)) by ring. now fpush. }
  replace (i (x * (X2 * Z3 - Z2 * X3) ^ 2)) with (fmul p (i x) (fmul p (fsub p (fmul p (i X2) (i Z3)) (fmul p (i Z2) (i X3))) (fsub p (fmul p (i X2) (i Z3)) (fmul p (i Z2) (i X3))))); [exact D|].
  replace (x * (X2 * Z3 - Z2 * X3) ^ 2) with (x * ((X2 * Z3 - Z2 * X3) * (X2 * Z3 - Z2 * X3))) by ring. now fpush.
Qed.
Lemma step_inv k j m st : 0 <= j -> inv m st -> inv (m + m + Nat.b2n (Z.testbit k j)) (ladder_step a x k st j).
Proof.
  intros J I. destruct st as [[[x2 z2] x3] z3]. rewrite step_eq by exact J. destruct I as (I2 & I3). destruct (Z.testbit k j); cbn [Nat.b2n core inv].
  - replace (m + m + 1)%nat with (S (m + m)) by lia. split.
    + assert (D := dadd _ _ _ _ _ I2 I3). replace ((x3 * x2 - z3 * z2) ^ 2) with ((x2 * x3 - z2 * z3) ^ 2) by ring. replace (x * (x3 * z2 - z3 * x2) ^ 2) with (x * (x2 * z3 - z2 * x3) ^ 2) by ring. exact D.
    + replace (S (S (m + m))) with (S m + S m)%nat by lia. apply dbl. exact I3.
  - rewrite Nat.add_0_r. split; [now apply dbl|now apply dadd].
Qed.
Lemma fold_inv k n : forall m st, inv m st -> inv (m * 2 ^ n + Z.to_nat (k mod 2 ^ Z.of_nat n)) (fold_left (ladder_step a x k) (rev (map Z.of_nat (seq 0 n))) st).
Proof.
  induction n as [|n IH]; intros m st I.
  - cbn [Nat.pow Z.of_nat seq map rev fold_left]. rewrite Z.pow_0_r, Z.mod_1_r. cbn [Z.to_nat]. now replace (m * 1 + 0)%nat with m by lia.
  - replace (S n) with (n + 1)%nat at 3 by lia. rewrite seq_app, map_app, rev_app_distr. cbn [seq map rev app fold_left Nat.add].
    assert (Q := IH _ _ (step_inv k (Z.of_nat n) m st ltac:(lia) I)).
    replace (m * 2 ^ S n + Z.to_nat (k mod 2 ^ Z.of_nat (S n)))%nat with ((m + m + Nat.b2n (Z.testbit k (Z.of_nat n))) * 2 ^ n + Z.to_nat (k mod 2 ^ Z.of_nat n))%nat; [exact Q|].
    apply Nat2Z.inj. rewrite !Nat2Z.inj_add, !Nat2Z.inj_mul, !Z2Nat.id by (apply Z.mod_pos_bound; apply Z.pow_pos_nonneg; lia).
    rewrite !Nat2Z.inj_pow. rewrite !Nat2Z.inj_add. change (Z.of_nat 2) with 2. rewrite Nat2Z.inj_succ.
    assert (E : k mod 2 ^ Z.succ (Z.of_nat n) = k mod 2 ^ Z.of_nat n + 2 ^ Z.of_nat n * Z.b2z (Z.testbit k (Z.of_nat n))).
    { rewrite Z.testbit_spec' by lia. rewrite Z.pow_succ_r by lia. rewrite (Z.mul_comm 2). apply Z.rem_mul_r; [|lia]. apply Z.pow_nonzero; lia. }
    rewrite E. rewrite Z.pow_succ_r by lia. replace (Z.of_nat (Nat.b2n (Z.testbit k (Z.of_nat n)))) with (Z.b2z (Z.testbit k (Z.of_nat n))) by (now destruct (Z.testbit k (Z.of_nat n))). ring.
Qed.
Lemma fi_pow z : i (z ^ (p - 2)) = finv p (i z).
Proof. unfold finv. apply fi_eq. rewrite fv_fi. now cmod. Qed.
Lemma ladder_nz k R : mg_multiple p a B (Some (x mod p, y)) (Z.to_nat (k mod 2 ^ 255)) R -> montgomery_ladder p a k x = x_coord R.
Proof.
  intros S. destruct (mg_multiple_hm _ _ _ OP S) as (OR & E). unfold montgomery_ladder.
  assert (I0 : inv 0 (1, 0, x, 1)).
  { split.
    - cbn [nmul Montgomery.rep]. split; [reflexivity|]. intros E0. apply fi_0 in E0; [|exact Hp]. rewrite Z.mod_1_l in E0; lia.
    - cbn [nmul]. rewrite gadd_O_l. cbn [hm]. apply (rep_M _ _ _ _ _ _ _ _ FT three_nz' _ _ B_nz'). rewrite fi_mod. split; [|ring].
      intros E0. apply fi_0 in E0; [|exact Hp]. rewrite Z.mod_1_l in E0; lia. }
  assert (Q := fold_inv k 255 0 _ I0). rewrite Nat.mul_0_l in Q. change (Z.of_nat 255) with 255 in Q. rewrite Nat.add_0_l in Q.
  destruct (fold_left (ladder_step a x k) (rev (map Z.of_nat (seq 0 255))) (1, 0, x, 1)) as [[[x2 z2] x3] z3]. destruct Q as (Q & _). rewrite <- E in Q. clear E S.
  destruct R as [[xr yr]|]; cbn [hm x_coord] in *.
  - apply (rep_M _ _ _ _ _ _ _ _ FT three_nz' _ _ B_nz') in Q as (N & Q). destruct OR as (X & _). rewrite <- (Z.mod_small xr p) by exact X. apply uncong, fi_eq.
    rewrite fi_mul, fi_pow, Q by exact Hp. field. exact N.
  - destruct Q as (Q & _). rewrite <- (Z.mod_0_l p) by lia. apply uncong, fi_eq. rewrite fi_mul, fi_pow, Q by exact Hp. unfold finv.
    replace (i (fv p (i 0) ^ (p - 2))) with (i 0); [ring|]. rewrite fv_fi, Z.mod_0_l, Z.pow_0_l by lia. reflexivity.
Qed.
End Point.
(** the point (0, 0) *)
Lemma ladder_zero x k : x mod p = 0 -> montgomery_ladder p a k x = 0.
Proof.
  intros X. unfold montgomery_ladder.
  assert (Q : forall l st, Forall (Z.le 0) l -> (let '(x2, z2, x3, z3) := st in cong p (x2 * z2) 0 /\ cong p (x3 * z3) 0) ->
    let '(x2, z2, x3, z3) := fold_left (ladder_step a x k) l st in cong p (x2 * z2) 0 /\ cong p (x3 * z3) 0).
  { assert (X0 : cong p x 0) by (split; rewrite X; symmetry; apply Z.mod_0_l; lia).
    induction l as [|j l IH]; intros st FA H; [exact H|]. inversion FA as [|? ? J FA']; subst. cbn [fold_left]. apply IH; [exact FA'|]. clear IH. destruct st as [[[x2 z2] x3] z3]. rewrite step_eq by exact J. destruct H as (H2 & H3).
    destruct (Z.testbit k j); cbn [core]; split.
    - rewrite X0. apply cong_refl_eq. ring.
    - transitivity ((x3 ^ 2 - z3 ^ 2) ^ 2 * (4 * (x3 * z3) * (x3 ^ 2 + a * x3 * z3 + z3 ^ 2))); [apply cong_refl_eq; ring|]. rewrite H3. apply cong_refl_eq. ring.
    - transitivity ((x2 ^ 2 - z2 ^ 2) ^ 2 * (4 * (x2 * z2) * (x2 ^ 2 + a * x2 * z2 + z2 ^ 2))); [apply cong_refl_eq; ring|]. rewrite H2. apply cong_refl_eq. ring.
    - rewrite X0. apply cong_refl_eq. ring. }
  specialize (Q (rev (map Z.of_nat (seq 0 255))) (1, 0, x, 1)). cbv beta iota in Q.
  destruct (fold_left (ladder_step a x k) (rev (map Z.of_nat (seq 0 255))) (1, 0, x, 1)) as [[[x2 z2] x3] z3].
  destruct Q as (Q & _).
  - apply Forall_forall. intros z Hz. apply in_rev, in_map_iff in Hz as (u & <- & _). lia.
  - split; [reflexivity|]. split. rewrite Z.mul_1_r, X. symmetry. apply Z.mod_0_l. lia.
  - rewrite <- (Z.mod_0_l p) by lia. apply uncong. replace (p - 2) with (Z.succ (p - 3)) by lia. rewrite Z.pow_succ_r by lia. rewrite Z.mul_assoc, Q. reflexivity.
Qed.
Theorem ladder_ok x y k R : on_mg p a B (Some (x mod p, y)) -> mg_multiple p a B (Some (x mod p, y)) (Z.to_nat (k mod 2 ^ 255)) R -> montgomery_ladder p a k x = x_coord R.
Proof.
  intros OP S. destruct (Z.eq_dec (x mod p) 0) as [E|N]; [|now apply (ladder_nz x y OP N)].
  rewrite ladder_zero by exact E. destruct (mg_multiple_hm _ _ _ OP S) as (OR & ER). symmetry.
  assert (Y0 : y = 0).
  { rewrite E in OP. destruct OP as (_ & Y & C). replace (B * y * y - (0 * 0 * 0 + a * 0 * 0 + 0)) with (B * y * y) in C by ring. apply Z.mod_divide in C; [|lia].
    assert (D : (p | y)). { apply prime_mult in C; [|exact Hp]. destruct C as [C|C]; [|exact C]. apply prime_mult in C; [|exact Hp]. destruct C as [C|C]; [|exact C]. exfalso. apply NB. apply Z.mod_divide; [lia|exact C]. }
    destruct (Z.eq_dec y 0) as [|N]; [assumption|]. apply Z.divide_pos_le in D; lia. }
  subst y. rewrite E in *.
  assert (K : forall n, nmul p wA n (hm (Some (0, 0))) = O \/ nmul p wA n (hm (Some (0, 0))) = hm (Some (0, 0))).
  { induction n as [|n [IH|IH]]; [now left|right|left]; cbn [nmul]; rewrite IH; [reflexivity|]. cbn [hm]. rewrite gadd_eq.
    apply (vertical_M _ _ _ _ _ _ _ _ FT (fp_dec p) _ _ B_nz'). }
  destruct (K (Z.to_nat (k mod 2 ^ 255))) as [K0|K0]; rewrite K0 in ER.
  - now rewrite (hm_inj R None OR I ER).
  - now rewrite (hm_inj R _ OR OP ER).
Qed.
End Ladder.
