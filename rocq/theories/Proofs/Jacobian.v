(** Scalar multiplication in Jacobian coordinates over the integers, read modulo a prime. *)
From Coq Require Import Znumtheory Field Setoid Lia ZArith List.
From Verif Require Import Proofs.Tac Proofs.Cong Proofs.Fp Proofs.ECGroup Proofs.Curve Spec.CurveSpec.
Import ListNotations.
Local Open Scope Z_scope.

Definition jpt := (Z * Z * Z)%type.
(** doubling *)
Definition zdbl (a : Z) (J : jpt) : jpt :=
  let '(X, Y, Z) := J in
  let YY := Y * Y in let ZZ := Z * Z in
  let S := X * YY in
  let M := 3 * (X * X) + a * (ZZ * ZZ) in
  let X3 := M * M - 8 * S in
  (X3, - (M * (X3 - 4 * S) + 8 * (YY * YY)), 2 * (Y * Z)).
(** adding the affine point (x, y) *)
Definition zmadd (x y : Z) (J : jpt) : jpt :=
  let '(X, Y, Z) := J in
  let ZZ := Z * Z in
  let H := X - x * ZZ in
  let r := Y - y * (Z * ZZ) in
  let HH := H * H in let HHH := H * HH in let V := X * HH in
  let X3 := r * r + HHH - 2 * V in
  (X3, - (r * (X3 - V) + Y * HHH), Z * H).
(** signed binary digits, most significant first *)
Inductive digit := D0 | D1 | Dm.
Definition dval (d : digit) : Z := match d with D0 => 0 | D1 => 1 | Dm => -1 end.
Definition zstep (a x y : Z) (J : jpt) (d : digit) : jpt :=
  match d with
  | D0 => zdbl a J
  | D1 => zmadd x y (zdbl a J)
  | Dm => zmadd x (- y) (zdbl a J)
  end.
Definition zmult (a x y : Z) (ds : list digit) : jpt := fold_left (zstep a x y) ds (x, y, 1).
Definition digits_val (ds : list digit) : Z := fold_left (fun k d => 2 * k + dval d) ds 1.

Section Jac.
Context (p : Z) (Hp : prime p) (p3 : 3 < p) (a b : Z) (NS : nonsingular p a b).
Local Notation F := (Fp p).
Local Notation i := (fi p).
Local Notation Pt := ECGroup.P.
Local Notation "0f" := (fi p 0).
Infix "++" := (gadd p a).
Local Notation gon := (gon p a b).
Let FT := fp_field p Hp.
Add Field Fpf : FT.
Local Ltac fpush := repeat rewrite ?fi_add, ?fi_sub, ?fi_mul, ?fi_opp, ?(i2 p), ?(i3 p).
Local Notation "x *f y" := (fmul p x y) (at level 40, left associativity).

Definition jrep (J : jpt) (A : pt (F := F)) : Prop :=
  let '(X, Y, Z) := J in i Z <> 0f /\ A = Pt (fdiv p (i X) (i Z *f i Z)) (fdiv p (i Y) (i Z *f i Z *f i Z)).
Definition jz (J : jpt) : Z := snd J.

Lemma mul_nz u v : u *f v <> 0f -> u <> 0f /\ v <> 0f.
Proof. intros H. split; intros ->; apply H; ring. Qed.
Lemma nz_mul u v : u <> 0f -> v <> 0f -> u *f v <> 0f.
Proof.
  intros Hu Hv E. apply Hv. transitivity (fdiv p (u *f v) u); [field; exact Hu|]. rewrite E. field. exact Hu.
Qed.
Lemma i8 : i 8 = fmul p (i 2) (fmul p (i 2) (i 2)). Proof. rewrite <- !fi_mul. reflexivity. Qed.
Lemma i4 : i 4 = fmul p (i 2) (i 2). Proof. rewrite <- !fi_mul. reflexivity. Qed.

Lemma dbl_ok J A : jrep J A -> gon A -> i (jz (zdbl a J)) <> 0f -> jrep (zdbl a J) (A ++ A).
Proof.
  destruct J as [[X Y] Z]. intros [HZ ->] G. unfold zdbl, jz, jrep. cbn [snd]. intros H. split; [exact H|].
  revert H. rewrite !fi_mul. intros H. apply mul_nz in H. destruct H as [_ H]. apply mul_nz in H. destruct H as [HY _].
  pose proof (two_nz p Hp p3) as H2.
  set (l := fdiv p (fadd p (fmul p (i 3) (fmul p (i X) (i X))) (fmul p (i a) (fmul p (fmul p (i Z) (i Z)) (fmul p (i Z) (i Z))))) (fmul p (i 2) (fmul p (i Y) (i Z)))).
  rewrite (sum_line p Hp p3 a b l); [|exact G|exact G|].
  - unfold l. fpush. rewrite ?i8, ?i4, ?(i2 p), ?(i3 p). f_equal; field; repeat split; assumption.
  - right. split; [reflexivity|]. split; [reflexivity|]. split.
    + intros E. apply HY. transitivity (fmul p (fdiv p (i Y) (i Z *f i Z *f i Z)) (i Z *f i Z *f i Z)); [field; exact HZ|]. rewrite E. ring.
    + unfold l. rewrite ?(i2 p), ?(i3 p). field. repeat split; assumption.
Qed.
Lemma madd_ok x y J A : jrep J A -> gon A -> gon (Pt (i x) (i y)) -> i (jz (zmadd x y J)) <> 0f -> jrep (zmadd x y J) (A ++ Pt (i x) (i y)).
Proof.
  destruct J as [[X Y] Z]. intros [HZ ->] G G2. unfold zmadd, jz, jrep. cbn [snd]. intros H. split; [exact H|].
  revert H. rewrite !fi_mul. intros H. apply mul_nz in H. destruct H as [_ H].
  set (l := fdiv p (i (Y - y * (Z * (Z * Z)))) (fmul p (i Z) (i (X - x * (Z * Z))))).
  rewrite (sum_line p Hp p3 a b l); [|exact G|exact G2|].
  - unfold l. revert H. fpush. intros H. f_equal; field; repeat split; assumption.
  - left. split.
    + intros E. apply H. fpush. rewrite <- E. field. exact HZ.
    + unfold l. revert H. fpush. intros H. field. repeat split; assumption.
Qed.
(** a zero Z stays zero *)
Lemma dbl_z J : i (jz (zdbl a J)) <> 0f -> i (jz J) <> 0f.
Proof. destruct J as [[X Y] Z]. unfold zdbl, jz. cbn [snd]. rewrite !fi_mul. intros H. apply mul_nz in H. destruct H as [_ H]. apply mul_nz in H. apply H. Qed.
Lemma madd_z x y J : i (jz (zmadd x y J)) <> 0f -> i (jz J) <> 0f.
Proof. destruct J as [[X Y] Z]. unfold zmadd, jz. cbn [snd]. rewrite fi_mul. intros H. apply mul_nz in H. apply H. Qed.

Context (x y : Z) (G : gon (Pt (i x) (i y))).
Local Notation Gp := (Pt (i x) (i y)).
Local Notation zm := (zmul p a).
Lemma step_ok J k d : jrep J (zm k Gp) -> i (jz (zstep a x y J d)) <> 0f -> jrep (zstep a x y J d) (zm (2 * k + dval d) Gp).
Proof.
  intros HJ H. assert (Gk : gon (zm k Gp)) by (apply (gon_zmul p Hp p3 a b); exact G).
  assert (D : i (jz (zdbl a J)) <> 0f -> jrep (zdbl a J) (zm (2 * k) Gp)).
  { intros HD. replace (2 * k) with (k + k) by ring. rewrite (zmul_add p Hp p3 a b NS) by exact G. apply dbl_ok; assumption. }
  assert (G2 : gon (zm (2 * k) Gp)) by (apply (gon_zmul p Hp p3 a b); exact G).
  destruct d; cbn [zstep dval] in *.
  - rewrite Z.add_0_r. apply D. exact H.
  - rewrite (zmul_add p Hp p3 a b NS) by exact G. change (zm 1 Gp) with Gp. apply madd_ok; [|exact G2|exact G|exact H]. apply D. apply (madd_z _ _ _ H).
  - rewrite (zmul_add p Hp p3 a b NS) by exact G. change (zm (-1) Gp) with (gopp p Gp). cbn [gopp opp]. unfold gopp, opp. rewrite <- fi_opp.
    apply madd_ok; [|exact G2| |exact H]; [apply D; apply (madd_z _ _ _ H)|]. rewrite fi_opp. apply (gon_opp p Hp a b Gp G).
Qed.
Lemma step_z J d : i (jz (zstep a x y J d)) <> 0f -> i (jz J) <> 0f.
Proof. destruct d; cbn [zstep]; intros H; [|apply madd_z in H..]; apply dbl_z in H; exact H. Qed.
Lemma steps_z ds : forall J, i (jz (fold_left (zstep a x y) ds J)) <> 0f -> i (jz J) <> 0f.
Proof. induction ds as [|d ds IH]; cbn [fold_left]; intros J H; [exact H|]. apply (step_z J d). apply IH. exact H. Qed.
Lemma steps_ok ds : forall J k, jrep J (zm k Gp) -> i (jz (fold_left (zstep a x y) ds J)) <> 0f ->
  jrep (fold_left (zstep a x y) ds J) (zm (fold_left (fun k d => 2 * k + dval d) ds k) Gp).
Proof.
  induction ds as [|d ds IH]; cbn [fold_left]; intros J k HJ H; [exact HJ|]. apply IH; [|exact H]. apply step_ok; [exact HJ|]. apply (steps_z ds). exact H.
Qed.
Lemma one_nz : i 1 <> 0f.
Proof. intros E. apply fi_0 in E; [|exact Hp]. rewrite Z.mod_small in E; lia. Qed.
(** the result is (kG), and if it is -G then (k+1) G = O *)
Theorem zmult_ok ds X Y Z : zmult a x y ds = (X, Y, Z) -> i Z <> 0f -> jrep (X, Y, Z) (zm (digits_val ds) Gp).
Proof.
  intros E H. rewrite <- E. unfold zmult, digits_val. apply steps_ok.
  - unfold jrep. split; [exact one_nz|]. change (zm 1 Gp) with Gp. pose proof one_nz. f_equal; field; assumption.
  - fold (zmult a x y ds). rewrite E. exact H.
Qed.
Theorem zmult_order ds X Y Z : zmult a x y ds = (X, Y, Z) -> i Z <> 0f ->
  i X = i (x * (Z * Z)) -> i Y = i (- (y * (Z * (Z * Z)))) -> zm (digits_val ds + 1) Gp = O.
Proof.
  intros E H EX EY. destruct (zmult_ok ds X Y Z E H) as [_ E2].
  rewrite (zmul_add p Hp p3 a b NS), E2 by exact G. change (zm 1 Gp) with Gp. rewrite EX, EY.
  replace (Pt _ _) with (gopp p Gp) at 1.
  - rewrite (gadd_comm p Hp p3 a b); [apply (gadd_opp p Hp)|apply (gon_opp p Hp a b Gp G)|exact G].
  - change (gopp p Gp) with (Pt (i x) (fopp p (i y))). fpush. f_equal; field; exact H.
Qed.
End Jac.
