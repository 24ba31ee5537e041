(** (x, y) -> (z^2 x, z^3 y) is an isomorphism of curve groups. *)
From Coq Require Import ZArith Znumtheory Setoid Lia.
From Verif Require Import Proofs.Tac Proofs.Cong Proofs.NTBasic Proofs.Fp Proofs.ECGroup Proofs.Curve Proofs.CurveFacts.
From Verif Require Import Spec.CurveSpec Spec.SeedSpec.
Local Open Scope Z_scope.

Section Iso.
Context (p : Z) (Hp : prime p) (p3 : 3 < p).
Lemma cong0 x : x mod p = 0 <-> cong p x 0.
Proof. split; [intros H; split; rewrite H; symmetry; apply Z.mod_0_l; lia|intros [H]; rewrite H; apply Z.mod_0_l; lia]. Qed.
Lemma cong_diff x y : (x - y) mod p = 0 <-> cong p x y.
Proof.
  rewrite cong0. split; intros H.
  - transitivity (x - y + y); [apply cong_refl_eq; ring|]. rewrite H. apply cong_refl_eq. ring.
  - rewrite H. apply cong_refl_eq. ring.
Qed.
Lemma mod_range x : 0 <= x mod p < p.
Proof. apply Z.mod_pos_bound. lia. Qed.

(** one direction, for any z *)
Lemma scale_on z a b a' b' P : cong p a' (z ^ 4 * a) -> cong p b' (z ^ 6 * b) -> on_ec p a b P -> on_ec p a' b' (scale_point p z P).
Proof.
  intros A B H. destruct P as [[x y]|]; [|exact I]. destruct H as (Rx & Ry & E). cbn [scale_point on_ec]. split; [apply mod_range|]. split; [apply mod_range|].
  apply cong_diff in E. apply cong_diff. cmod. rewrite A, B. transitivity (z ^ 6 * (y * y)); [apply cong_refl_eq; ring|]. rewrite E. apply cong_refl_eq. ring.
Qed.
Context (z w : Z) (W : cong p (z * w) 1).
Lemma zw k : 0 <= k -> cong p (w ^ k * z ^ k) 1.
Proof. intros K. rewrite <- Z.pow_mul_l, (Z.mul_comm w z), W. rewrite Z.pow_1_l by exact K. reflexivity. Qed.
Lemma scale_inv P : (match P with None => True | Some (x, y) => 0 <= x < p /\ 0 <= y < p end) -> scale_point p w (scale_point p z P) = P.
Proof.
  destruct P as [[x y]|]; [|reflexivity]. intros (Rx & Ry). cbn [scale_point]. f_equal. f_equal; apply (cong_range p); try assumption; cmod.
  - transitivity (w ^ 2 * z ^ 2 * x); [apply cong_refl_eq; ring|]. rewrite zw by lia. apply cong_refl_eq. ring.
  - transitivity (w ^ 3 * z ^ 3 * y); [apply cong_refl_eq; ring|]. rewrite zw by lia. apply cong_refl_eq. ring.
Qed.
Lemma scale_neg P : scale_point p z (ec_neg p P) = ec_neg p (scale_point p z P).
Proof. destruct P as [[x y]|]; [|reflexivity]. cbn [scale_point ec_neg]. f_equal. f_equal. apply (uncong (p := p)). cmod. apply cong_refl_eq. ring. Qed.
Lemma cancel k x y : 0 <= k -> cong p (z ^ k * x) (z ^ k * y) -> cong p x y.
Proof.
  intros K H. transitivity (w ^ k * z ^ k * x); [rewrite zw by exact K; apply cong_refl_eq; ring|]. rewrite <- Z.mul_assoc, H, Z.mul_assoc. rewrite zw by exact K. apply cong_refl_eq. ring.
Qed.
Lemma scale_third l x1 y1 x2 x3 y3 : third_point p l x1 y1 x2 x3 y3 ->
  third_point p (z * l) ((z ^ 2 * x1) mod p) ((z ^ 3 * y1) mod p) ((z ^ 2 * x2) mod p) ((z ^ 2 * x3) mod p) ((z ^ 3 * y3) mod p).
Proof.
  intros (Rx & Ry & Ex & Ey). split; [apply mod_range|]. split; [apply mod_range|]. rewrite !cong_diff in *. split; cmod; [rewrite Ex|rewrite Ey]; apply cong_refl_eq; ring.
Qed.
Lemma scale_sum a a' P Q R : cong p a' (z ^ 4 * a) ->
  (match P with None => True | Some (x, y) => 0 <= x < p /\ 0 <= y < p end) -> (match Q with None => True | Some (x, y) => 0 <= x < p /\ 0 <= y < p end) ->
  ec_sum p a P Q R -> ec_sum p a' (scale_point p z P) (scale_point p z Q) (scale_point p z R).
Proof.
  intros A RP RQ S. destruct S as [Q|P|P|x1 y1 x2 y2 l x3 y3 N L T|x y l x3 y3 N L T].
  - constructor.
  - constructor.
  - rewrite scale_neg. constructor.
  - cbn [scale_point]. apply sum_chord with (l := z * l); [|rewrite cong_diff in *; cmod|now apply scale_third].
    + intros E. apply N. apply (cong_eq p); [tauto|tauto|]. apply (cancel 2); [lia|]. now split.
    + transitivity (z ^ 3 * (l * (x2 - x1))); [apply cong_refl_eq; ring|]. rewrite L. apply cong_refl_eq. ring.
  - cbn [scale_point]. apply sum_tangent with (l := z * l); [|rewrite cong_diff in *; cmod|now apply scale_third].
    + intros E. apply N. apply (cong_eq p); [tauto|lia|]. apply (cancel 3); [lia|]. split. rewrite E, Z.mul_0_r. symmetry. apply Z.mod_0_l. lia.
    + rewrite A. transitivity (z ^ 4 * (l * (2 * y))); [apply cong_refl_eq; ring|]. rewrite L. apply cong_refl_eq. ring.
Qed.
End Iso.

Lemma isomorphic p z a b a' b' : prime p -> 3 < p -> 0 < z < p -> a' mod p = (z ^ 4 * a) mod p -> b' mod p = (z ^ 6 * b) mod p ->
  curve_isomorphism p a b a' b' (scale_point p z).
Proof.
  intros Hp p3 Z0 A B.
  assert (exists w, cong p (z * w) 1) as (w & W).
  { assert (RP : rel_prime z p) by (apply rel_prime_le_prime; [exact Hp|lia]). destruct (rel_prime_bezout _ _ RP) as [u v E]. exists u.
    transitivity (1 + (- v) * p); [apply cong_refl_eq; lia|]. apply cong_period. }
  assert (W' : cong p (w * z) 1) by (rewrite Z.mul_comm; exact W).
  assert (A' : cong p a' (z ^ 4 * a)) by now split. assert (B' : cong p b' (z ^ 6 * b)) by now split.
  assert (AI : cong p a (w ^ 4 * a')).
  { rewrite A', Z.mul_assoc, (zw p z w W 4) by lia. apply cong_refl_eq. ring. }
  assert (BI : cong p b (w ^ 6 * b')).
  { rewrite B', Z.mul_assoc, (zw p z w W 6) by lia. apply cong_refl_eq. ring. }
  assert (RG : forall a b P, on_ec p a b P -> match P with None => True | Some (x, y) => 0 <= x < p /\ 0 <= y < p end).
  { intros a0 b0 [[x y]|] H; [split; apply H|exact I]. }
  split; [|split].
  - intros P H. now apply (scale_on p p3 z a b).
  - intros Q H. exists (scale_point p w Q). split; [now apply (scale_on p p3 w a' b')|]. split; [now apply (scale_inv p w z W'), (RG a' b')|].
    intros P' H' E. rewrite <- E. symmetry. now apply (scale_inv p z w W), (RG a b).
  - intros P Q R HP HQ HR. split; intros S; [exact (scale_sum p p3 z w W a a' P Q R A' (RG _ _ _ HP) (RG _ _ _ HQ) S)|].
    pose proof (scale_sum p p3 w z W' a' a _ _ _ AI (RG a' b' _ (scale_on p p3 z a b a' b' P A' B' HP)) (RG a' b' _ (scale_on p p3 z a b a' b' Q A' B' HQ)) S) as S'.
    rewrite !(scale_inv p z w W) in S' by (eapply RG; eassumption). exact S'.
Qed.
