(** Montgomery curves B y^2 = x^3 + a x^2 + x over any field of characteristic not 2 or 3: the
    group comes from the isomorphic Weierstrass curve, and the formulas of the ladder compute
    x-coordinates. *)
From Coq Require Import List Bool Ring Field Setoid.
From Verif Require Import Proofs.ECGroup.
Import ListNotations.

Section M.
Context {F : Type} (zero one : F) (fadd fmul fsub : F -> F -> F) (fopp : F -> F) (fdiv : F -> F -> F) (finv : F -> F).
Context (FT : field_theory zero one fadd fmul fsub fopp fdiv finv (@eq F)).
Context (dec : forall x y : F, {x = y} + {x <> y}).
Add Field Ffield2 : FT.
Local Notation "0" := zero.
Local Notation "1" := one.
Local Infix "+" := fadd.
Local Infix "*" := fmul.
Local Infix "-" := fsub.
Local Infix "/" := fdiv.
Local Notation "- x" := (fopp x).
Local Notation "2" := (1 + 1).
Local Notation "3" := (1 + 1 + 1).
Local Notation "4" := ((1 + 1) * (1 + 1)).
Context (two_nz : 2 <> 0) (three_nz : 3 <> 0) (a B : F) (B_nz : B <> 0) (a_ns : a * a - 4 <> 0).
Lemma sub_nz u v : u <> v -> v - u <> 0.
Proof. intros N E. apply N. transitivity (v - (v - u)); [ring|]. rewrite E. ring. Qed.
Lemma mul_nz' u v : u <> 0 -> v <> 0 -> u * v <> 0.
Proof. apply (mul_nz _ _ _ _ _ _ _ _ FT dec). Qed.
Lemma mul_0 u v : u * v = 0 -> u = 0 \/ v = 0.
Proof. apply (mul_eq_0 _ _ _ _ _ _ _ _ FT dec). Qed.
Lemma four_nz : 4 <> 0. Proof. now apply mul_nz'. Qed.
Ltac nz := repeat split; try assumption; match goal with |- ?c <> _ => first
  [ replace c with 2 by ring; assumption | replace c with 3 by ring; assumption | replace c with (3 * 3) by ring; auto using mul_nz'
  | replace c with (3 * 3 * 3) by ring; auto using mul_nz' | replace c with (2 * 3) by ring; auto using mul_nz' ] end.
Ltac fd := field; nz.
(** the isomorphic Weierstrass curve *)
Definition wa : F := (3 - a * a) / (3 * B * B).
Definition wb : F := (2 * a * a * a - 3 * 3 * a) / (3 * 3 * 3 * B * B * B).
Lemma w_ns : (2 * 2) * (wa * wa * wa) + (3 * 3 * 3) * (wb * wb) <> 0.
Proof.
  intros E. apply a_ns. transitivity (- (B * B * B * B * B * B) * ((2 * 2) * (wa * wa * wa) + (3 * 3 * 3) * (wb * wb))).
  - unfold wa, wb. fd.
  - rewrite E. ring.
Qed.
Local Notation gon := (on fadd fmul wa wb).
Local Notation opp := (opp fopp).
Local Notation add := (add zero one fadd fmul fsub fdiv dec wa).
Local Infix "++" := add.
(** the point (x, y) of the Montgomery curve *)
Definition M (x y : F) : pt := P ((x + a / 3) / B) (y / B).
Definition f (x : F) : F := x * x * x + a * (x * x) + x.
Lemma on_M x y : gon (M x y) <-> B * y * y = f x.
Proof.
  unfold M, f. cbn. split; intros E.
  - transitivity (B * B * B * (y / B * (y / B))); [fd|]. rewrite E. unfold wa, wb. fd.
  - transitivity ((B * y * y) / (B * B * B)); [fd|]. rewrite E. unfold wa, wb. fd.
Qed.
Lemma M_surj A : A = O \/ exists x y, A = M x y.
Proof. destruct A as [|u v]; [now left|right]. exists (B * u - a / 3), (B * v). unfold M. f_equal; fd. Qed.
Lemma M_inj x y x' y' : M x y = M x' y' -> x = x' /\ y = y'.
Proof.
  intros E. assert (E1 : (x + a / 3) / B = (x' + a / 3) / B) by (unfold M in E; congruence). assert (E2 : y / B = y' / B) by (unfold M in E; congruence). split.
  - transitivity (B * ((x + a / 3) / B) - a / 3); [fd|]. rewrite E1. fd.
  - transitivity (B * (y / B)); [fd|]. rewrite E2. fd.
Qed.
Lemma opp_M x y : opp (M x y) = M x (- y).
Proof. unfold M. cbn. f_equal. fd. Qed.
(** chords and tangents *)
Lemma chord_M x1 y1 x2 y2 l : x1 <> x2 -> l * (x2 - x1) = y2 - y1 ->
  M x1 y1 ++ M x2 y2 = M (B * l * l - a - x1 - x2) (l * (x1 - (B * l * l - a - x1 - x2)) - y1).
Proof.
  intros N L. assert (D := sub_nz _ _ N). unfold M at 1 2. cbn.
  destruct (dec ((x1 + a / 3) / B) ((x2 + a / 3) / B)) as [E|_].
  { exfalso. apply N. destruct (M_inj x1 0 x2 0) as (E' & _); [unfold M; now rewrite E|exact E']. }
  replace ((x2 + a / 3) / B - (x1 + a / 3) / B) with ((x2 - x1) / B) by fd. replace (y2 / B - y1 / B) with (l * (x2 - x1) / B) by (rewrite L; fd).
  replace (l * (x2 - x1) / B / ((x2 - x1) / B)) with l by fd. unfold line, M. f_equal; fd.
Qed.
Lemma tangent_M x y l : y <> 0 -> l * (2 * B * y) = 3 * x * x + 2 * a * x + 1 ->
  M x y ++ M x y = M (B * l * l - a - x - x) (l * (x - (B * l * l - a - x - x)) - y).
Proof.
  intros N L. unfold M at 1 2. cbn. destruct (dec ((x + a / 3) / B) ((x + a / 3) / B)) as [_|E]; [|congruence].
  destruct (dec (y / B + y / B) 0) as [E|_].
  { exfalso. assert (E' : 2 * y = 0). { transitivity (B * (y / B + y / B)); [fd|]. rewrite E. ring. } destruct (mul_0 _ _ E'); contradiction. }
  replace (3 * ((x + a / 3) / B) * ((x + a / 3) / B) + wa) with (l * (2 * B * y) / (B * B)) by (rewrite L; unfold wa; fd).
  replace (l * (2 * B * y) / (B * B) / (2 * (y / B))) with l by fd. unfold line, M. f_equal; fd.
Qed.
Lemma vertical_M x : M x 0 ++ M x 0 = O.
Proof. rewrite <- (opp_opp _ _ _ _ _ _ _ _ FT (M x 0)) at 2. replace (opp (M x 0)) with (M x 0); [rewrite opp_M|]. 2:{ rewrite opp_M. f_equal. ring. } rewrite <- opp_M. apply (add_opp _ _ _ _ _ _ _ _ FT). Qed.
Lemma opp_sum_M x y : M x y ++ M x (- y) = O.
Proof. rewrite <- opp_M. apply (add_opp _ _ _ _ _ _ _ _ FT). Qed.
Lemma same_x_M x y y' : gon (M x y) -> gon (M x y') -> y' = y \/ y' = - y.
Proof.
  intros H H'. apply on_M in H, H'. assert (E : B * ((y' - y) * (y' + y)) = 0). { transitivity (B * y' * y' - B * y * y); [ring|]. rewrite H, H'. ring. }
  apply mul_0 in E as [E|E]; [contradiction|]. apply mul_0 in E as [E|E].
  - left. transitivity (y' - y + y); [ring|]. rewrite E. ring.
  - right. transitivity (y' + y - y); [ring|]. rewrite E. ring.
Qed.
(** ** projective x-coordinates *)
Definition rep (X Z : F) (A : pt) : Prop :=
  match A with O => Z = 0 /\ X <> 0 | P u _ => Z <> 0 /\ X = (B * u - a / 3) * Z end.
Lemma rep_M X Z x y : rep X Z (M x y) <-> Z <> 0 /\ X = x * Z.
Proof. unfold M, rep. replace (B * ((x + a / 3) / B) - a / 3) with x; [reflexivity|]. fd. Qed.
Lemma rep_opp X Z A : rep X Z (opp A) <-> rep X Z A.
Proof. now destruct A. Qed.
Lemma double_x x y : gon (M x y) -> y <> 0 -> exists xd yd, M x y ++ M x y = M xd yd /\ xd * (4 * f x) = (x * x - 1) * (x * x - 1).
Proof.
  intros H N. apply on_M in H. set (l := (3 * x * x + 2 * a * x + 1) / (2 * B * y)).
  assert (L : l * (2 * B * y) = 3 * x * x + 2 * a * x + 1) by (unfold l; fd).
  eexists _, _. split; [apply (tangent_M x y l N L)|]. assert (L2 : (l * (2 * B * y)) * (l * (2 * B * y)) = B * l * l * (4 * f x)). { rewrite <- H. ring. }
  rewrite L in L2. transitivity (B * l * l * (4 * f x) - (a + x + x) * (4 * f x)); [ring|]. rewrite <- L2. unfold f. ring.
Qed.
Theorem rep_double X Z A : gon A -> rep X Z A ->
  rep ((X * X - Z * Z) * (X * X - Z * Z)) (4 * X * Z * (X * X + a * X * Z + Z * Z)) (A ++ A).
Proof.
  intros H R. destruct (M_surj A) as [->|(x & y & ->)].
  - destruct R as (-> & N). cbn. split; [ring|]. replace (X * X - 0 * 0) with (X * X) by ring. auto using mul_nz'.
  - apply rep_M in R as (N & ->). assert (H' := H). apply on_M in H'. destruct (dec y 0) as [->|Y].
    + rewrite vertical_M. cbn. assert (F0 : f x = 0) by (rewrite <- H'; ring). split.
      * transitivity (4 * Z * Z * Z * Z * f x); [unfold f; ring|]. rewrite F0. ring.
      * replace ((x * Z * (x * Z) - Z * Z) * (x * Z * (x * Z) - Z * Z)) with ((x * x - 1) * (x * x - 1) * ((Z * Z) * (Z * Z))) by ring.
        assert (K : x * x - 1 <> 0); [|auto using mul_nz'].
        intros K. assert (F1 : x * (x * x + a * x + 1) = 0) by (rewrite <- F0; unfold f; ring). apply mul_0 in F1 as [->|F1].
        { apply two_nz. transitivity ((0 * 0 - 1) * (- (2))); [ring|]. rewrite K. ring. }
        apply a_ns. transitivity ((x * x + a * x + 1) * (a * x + - x * x + 1 - 2 - 2 + 2) + (x * x - 1) * (- a * a + x * x + 1 + 2)  ); [|rewrite F1, K; ring]. ring.
    + destruct (double_x x y H Y) as (xd & yd & -> & D). apply rep_M.
      assert (FX : f x <> 0). { rewrite <- H'. auto using mul_nz'. }
      replace (4 * (x * Z) * Z * (x * Z * (x * Z) + a * (x * Z) * Z + Z * Z)) with (4 * f x * ((Z * Z) * (Z * Z))) by (unfold f; ring). split; [assert (F4 := four_nz); auto using mul_nz'|].
      transitivity ((x * x - 1) * (x * x - 1) * ((Z * Z) * (Z * Z))); [ring|]. rewrite <- D. ring.
Qed.
Theorem rep_add X2 Z2 X3 Z3 A A' x1 y1 : gon A -> gon A' -> A' = A ++ M x1 y1 -> gon (M x1 y1) -> x1 <> 0 -> rep X2 Z2 A -> rep X3 Z3 A' ->
  rep ((X2 * X3 - Z2 * Z3) * (X2 * X3 - Z2 * Z3)) (x1 * ((X2 * Z3 - Z2 * X3) * (X2 * Z3 - Z2 * X3))) (A ++ A').
Proof.
  intros H H' EA HP N1 R R'. destruct (M_surj A) as [->|(x2 & y2 & ->)].
  { cbn in EA. subst A'. cbn [ECGroup.add]. destruct R as (-> & NX). apply rep_M in R' as (NZ & ->). apply rep_M. split.
    - replace (X2 * Z3 - 0 * (x1 * Z3)) with (X2 * Z3) by ring. auto using mul_nz'.
    - ring. }
  apply rep_M in R as (NZ & ->).
  (* A' - A = P *)
  assert (SH : opp (M x2 y2) ++ A' = M x1 y1).
  { rewrite EA. apply (add_shift _ _ _ _ _ _ _ _ FT dec two_nz wa wb w_ns); assumption. }
  destruct (M_surj A') as [->|(x3 & y3 & ->)].
  { rewrite (add_O_r _ _ _ _ _ _ dec wa) in SH |- *. rewrite opp_M in SH. apply M_inj in SH as (-> & _). destruct R' as (-> & NX). apply rep_M. split.
    - replace (x1 * Z2 * 0 - Z2 * X3) with (- (Z2 * X3)) by ring. replace (- (Z2 * X3) * - (Z2 * X3)) with (Z2 * X3 * (Z2 * X3)) by ring. auto using mul_nz'.
    - ring. }
  apply rep_M in R' as (NZ' & ->). rewrite opp_M in SH. assert (E2 := proj1 (on_M _ _) H). assert (E3 := proj1 (on_M _ _) H').
  replace (x2 * Z2 * (x3 * Z3) - Z2 * Z3) with ((x2 * x3 - 1) * (Z2 * Z3)) by ring. replace (x2 * Z2 * Z3 - Z2 * (x3 * Z3)) with ((x2 - x3) * (Z2 * Z3)) by ring.
  assert (NN : Z2 * Z3 <> 0) by auto using mul_nz'. set (W := Z2 * Z3) in *. clearbody W.
  destruct (dec x2 x3) as [<-|N].
  - destruct (same_x_M x2 y2 y3 H H') as [-> | ->].
    { exfalso. rewrite (add_comm _ _ _ _ _ _ _ _ FT dec two_nz wa wb) in SH; [rewrite opp_sum_M in SH; discriminate|rewrite <- opp_M; now apply (on_opp _ _ _ _ _ _ _ _ FT)|exact H]. }
    rewrite opp_sum_M. cbn. split; [ring|]. assert (K : x2 * x2 - 1 <> 0).
    { intros K. destruct (dec y2 0) as [->|Y]. { replace (- 0) with 0 in SH by ring. rewrite vertical_M in SH. discriminate. }
      destruct (double_x x2 (- y2) H') as (xd & yd & D & E); [intros Y0; apply Y; transitivity (- - y2); [ring|rewrite Y0; ring]|].
      rewrite SH in D. apply M_inj in D as (<- & _). rewrite K in E. assert (E0 : x1 * (4 * f x2) = 0) by (rewrite E; ring). apply mul_0 in E0 as [E0|E0]; [contradiction|].
      apply mul_0 in E0 as [E0|E0]; [now apply four_nz in E0|]. rewrite <- E2 in E0. apply mul_0 in E0 as [E0|E0]; [|contradiction]. apply mul_0 in E0 as [E0|E0]; contradiction. }
    auto using mul_nz'.
  - assert (D := sub_nz _ _ N). set (l := (y3 - y2) / (x3 - x2)). set (m := (y3 + y2) / (x3 - x2)).
    assert (L : l * (x3 - x2) = y3 - y2) by (unfold l; field; exact D). assert (Lm : m * (x3 - x2) = y3 - - y2) by (unfold m; field; exact D).
    rewrite (chord_M x2 y2 x3 y3 l N L). rewrite (chord_M x2 (- y2) x3 y3 m N Lm) in SH. apply M_inj in SH as (X1 & _). apply rep_M. split.
    + assert (D' : x2 - x3 <> 0). { apply sub_nz. congruence. } auto using mul_nz'.
    + set (G := (x2 + x3) * (x2 * x3 + 1) + 2 * a * x2 * x3).
      assert (S1 : (B * l * l - a - x2 - x3) * ((x3 - x2) * (x3 - x2)) = G - 2 * B * y2 * y3).
      { transitivity (B * (l * (x3 - x2)) * (l * (x3 - x2)) - (a + x2 + x3) * ((x3 - x2) * (x3 - x2))); [ring|]. rewrite L.
        transitivity (B * y3 * y3 + B * y2 * y2 - 2 * B * y2 * y3 - (a + x2 + x3) * ((x3 - x2) * (x3 - x2))); [ring|]. rewrite E2, E3. unfold G, f. ring. }
      assert (S2 : x1 * ((x3 - x2) * (x3 - x2)) = G + 2 * B * y2 * y3).
      { rewrite <- X1. transitivity (B * (m * (x3 - x2)) * (m * (x3 - x2)) - (a + x2 + x3) * ((x3 - x2) * (x3 - x2))); [ring|]. rewrite Lm.
        transitivity (B * y3 * y3 + B * y2 * y2 + 2 * B * y2 * y3 - (a + x2 + x3) * ((x3 - x2) * (x3 - x2))); [ring|]. rewrite E2, E3. unfold G, f. ring. }
      set (xs := B * l * l - a - x2 - x3) in *.
      assert (PR : (xs * ((x3 - x2) * (x3 - x2))) * (x1 * ((x3 - x2) * (x3 - x2))) = (x3 - x2) * (x3 - x2) * ((x2 * x3 - 1) * (x2 * x3 - 1))).
      { rewrite S1, S2. transitivity (G * G - 4 * (B * y2 * y2) * (B * y3 * y3)); [ring|]. rewrite E2, E3. unfold G, f. ring. }
      assert (PR' : xs * x1 * ((x3 - x2) * (x3 - x2)) = (x2 * x3 - 1) * (x2 * x3 - 1)).
      { apply (mul_cancel _ _ _ _ _ _ _ _ FT dec ((x3 - x2) * (x3 - x2))); [auto using mul_nz'|]. rewrite <- PR. ring. }
      transitivity ((x2 * x3 - 1) * (x2 * x3 - 1) * (W * W)); [ring|]. rewrite <- PR'. ring.
Qed.
End M.
