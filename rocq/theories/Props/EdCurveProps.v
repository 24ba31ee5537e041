(** C90: the built-in twisted Edwards, Edwards and Montgomery curves; associativity of the Edwards sum (C88), key agreement with the ladder (C70). *)
From Coq Require Import ZArith Znumtheory List Lia String.
From Verif Require Import Model.Py Model.NumberTheory Model.Ecc Model.Curves Model.EdCurves Spec.CurveSpec Spec.MontgomerySpec Spec.EdwardsSpec Proofs.CurveFacts Proofs.EdGroup Proofs.EdCurveFacts.
Import ListNotations.
Local Open Scope Z_scope.
Local Open Scope string_scope.

(** C70 *)
Theorem C70_compose : forall p a B x y k m S, prime p -> 3 < p -> (a * a - 4) mod p <> 0 -> B mod p <> 0 -> on_mg p a B (Some (x mod p, y)) ->
  mg_multiple p a B (Some (x mod p, y)) (Z.to_nat (k mod 2 ^ 255) * Z.to_nat (m mod 2 ^ 255)) S -> montgomery_ladder p a k (montgomery_ladder p a m x) = x_coord S.
Proof. exact c70_compose. Qed.
Print Assumptions C70_compose.

Theorem C70_key_agreement : forall p a x k m, prime p -> 3 < p -> (a * a - 4) mod p <> 0 ->
  montgomery_ladder p a k (montgomery_ladder p a m x) = montgomery_ladder p a m (montgomery_ladder p a k x).
Proof. exact c70_key_agreement. Qed.
Print Assumptions C70_key_agreement.

(** y^2 = x^3 + 3 x^2 + x modulo 23, the point (4, 1), private keys 2 and 1 *)
Example C70_compose_example : prime 23 /\ (3 * 3 - 4) mod 23 <> 0 /\ on_mg 23 3 1 (Some (4 mod 23, 1)) /\
  mg_multiple 23 3 1 (Some (4 mod 23, 1)) (Z.to_nat (2 mod 2 ^ 255) * Z.to_nat (1 mod 2 ^ 255)) (Some (16, 21)) /\ montgomery_ladder 23 3 2 (montgomery_ladder 23 3 1 4) = 16 /\ montgomery_ladder 23 3 1 (montgomery_ladder 23 3 2 4) = 16.
Proof.
  assert (S1 : mg_multiple 23 3 1 (Some (4 mod 23, 1)) (Z.to_nat (2 mod 2 ^ 255) * Z.to_nat (1 mod 2 ^ 255)) (Some (16, 21))).
  { apply mgm_S with (Some (4, 1)); [apply mgm_S with None; constructor|]. apply mgs_tangent with (l := 2); [lia|reflexivity|]. repeat split; reflexivity || lia. }
  assert (O : on_mg 23 3 1 (Some (4 mod 23, 1))) by (repeat split; reflexivity || lia). assert (N : (3 * 3 - 4) mod 23 <> 0) by discriminate.
  assert (E : montgomery_ladder 23 3 2 (montgomery_ladder 23 3 1 4) = 16) by (rewrite (c70_compose 23 3 1 4 1 2 1 _ p23 ltac:(lia) N ltac:(discriminate) O S1); reflexivity).
  split; [exact p23|]. split; [exact N|]. split; [exact O|]. split; [exact S1|]. split; [exact E|]. exact (eq_trans (c70_key_agreement 23 3 4 1 2 p23 (eq_refl : 3 < 23) N) E).
Qed.

(** C88 *)
Theorem C88_assoc : forall p a d x1 y1 x2 y2 x3 y3 x12 y12 x23 y23 xl yl xr yr, prime p -> 3 < p -> (a * d) mod p <> 0 -> (a - d) mod p <> 0 ->
  on_edwards p a d x1 y1 -> on_edwards p a d x2 y2 -> on_edwards p a d x3 y3 ->
  ed_defined p d x1 y1 x2 y2 -> ed_sum p a d x1 y1 x2 y2 x12 y12 -> ed_defined p d x12 y12 x3 y3 -> ed_sum p a d x12 y12 x3 y3 xl yl ->
  ed_defined p d x2 y2 x3 y3 -> ed_sum p a d x2 y2 x3 y3 x23 y23 -> ed_defined p d x1 y1 x23 y23 -> ed_sum p a d x1 y1 x23 y23 xr yr ->
  xl = xr /\ yl = yr.
Proof. exact c88_assoc. Qed.
Print Assumptions C88_assoc.

(** (4, 4) + (1, 0) + (4, 4) on x^2 + y^2 = 1 + 2 x^2 y^2 modulo 13 *)
Example C88_assoc_example : on_edwards 13 1 2 4 4 /\ on_edwards 13 1 2 1 0 /\ ed_defined 13 2 4 4 1 0 /\ ed_sum 13 1 2 4 4 1 0 4 9 /\ ed_defined 13 2 4 9 4 4 /\ ed_sum 13 1 2 4 9 4 4 0 12 /\
  ed_defined 13 2 1 0 4 4 /\ ed_sum 13 1 2 1 0 4 4 4 9 /\ ed_defined 13 2 4 4 4 9 /\ ed_sum 13 1 2 4 4 4 9 0 12.
Proof. repeat split; discriminate || reflexivity || lia. Qed.

(** C90 *)
Theorem C90_lists : map cls_name twistedEdwardsCurves = ["GOSTmsg05975te"] /\ map cls_name edwardsCurves = ["Curve3617"; "E382"; "E521"; "Ed25519"] /\ map cls_name montgomeryCurves = ["Curve25519"; "M383"; "M511"].
Proof. exact c90_lists. Qed.
Print Assumptions C90_lists.

(** the parameters of three Edwards classes are sound: the curve is complete, the generator is on it, n is prime and its order, h n is a possible number of points *)
Theorem C90_edwards : forall c, In c [cls_E382; cls_Curve3617; cls_E521] -> exists p d x y n h,
  int_attr c "p" = Ok p /\ int_attr c "a" = Ok 1 /\ int_attr c "d" = Ok d /\ int_attr c "xG" = Ok x /\ int_attr c "yG" = Ok y /\ int_attr c "n" = Ok n /\ int_attr c "h" = Ok h /\
  prime p /\ prime n /\ (forall r, (r ^ 2 - d) mod p <> 0) /\ 0 <= x < p /\ 0 <= y < p /\ on_edwards p 1 d x y /\ ed_order p 1 d x y n /\ (n * h - p - 1) ^ 2 <= 4 * p.
Proof. exact c90_edwards. Qed.
Print Assumptions C90_edwards.

Example C90_edwards_example : In cls_E521 [cls_E382; cls_Curve3617; cls_E521] /\ int_attr cls_E521 "p" = Ok (2 ^ 521 - 1) /\ int_attr cls_E521 "yG" = Ok 12.
Proof. split; [cbn; auto|]. split; vm_compute; reflexivity. Qed.

Theorem C90_montgomery : forall c, In c [cls_Curve25519; cls_M383] -> exists p a x y n h,
  int_attr c "p" = Ok p /\ int_attr c "a" = Ok a /\ int_attr c "xG" = Ok x /\ int_attr c "yG" = Ok y /\ int_attr c "n" = Ok n /\ int_attr c "h" = Ok h /\
  prime p /\ prime n /\ (a * a - 4) mod p <> 0 /\ mg_generator c = Ok (x, y) /\ on_mg p a 1 (Some (x, y)) /\ mg_order p a 1 (Some (x, y)) n /\ (n * h - p - 1) ^ 2 <= 4 * p.
Proof. exact c90_montgomery. Qed.
Print Assumptions C90_montgomery.

Example C90_montgomery_example : In cls_Curve25519 [cls_Curve25519; cls_M383] /\ int_attr cls_Curve25519 "p" = Ok (2 ^ 255 - 19) /\ int_attr cls_Curve25519 "a" = Ok 486662 /\ int_attr cls_Curve25519 "xG" = Ok 9.
Proof. split; [cbn; auto|]. repeat split; vm_compute; reflexivity. Qed.

(** the twisted Edwards GOST curve: the second assignment to n gives it a prime that is not the order of the generator; q is *)
Theorem C90_gost_refuted : exists p d x y n q h, let c := cls_GOSTmsg05975te in
  int_attr c "p" = Ok p /\ int_attr c "a" = Ok 1 /\ int_attr c "d" = Ok d /\ int_attr c "xG" = Ok x /\ int_attr c "yG" = Ok y /\ int_attr c "n" = Ok n /\ int_attr c "q" = Ok q /\ int_attr c "h" = Ok h /\
  prime p /\ prime n /\ (forall r, (r ^ 2 - d) mod p <> 0) /\ 0 <= x < p /\ 0 <= y < p /\ on_edwards p 1 d x y /\
  ~ ed_multiple p 1 d x y (Z.to_nat n) 0 1 /\ prime q /\ ed_order p 1 d x y q /\ (q * h - p - 1) ^ 2 <= 4 * p.
Proof. exact c90_gost_refuted. Qed.
Print Assumptions C90_gost_refuted.

(** Ed25519: d is 1, so the equation is that of four lines, and the generator, copied from Curve25519, is on none of them *)
Theorem C90_ed25519_refuted : exists p x y, let c := cls_Ed25519 in
  int_attr c "p" = Ok p /\ int_attr c "a" = Ok 1 /\ int_attr c "d" = Ok 1 /\ int_attr c "xG" = Ok x /\ int_attr c "yG" = Ok y /\ int_attr cls_Curve25519 "xG" = Ok x /\ int_attr cls_Curve25519 "yG" = Ok y /\
  prime p /\ (forall u v, on_edwards p 1 1 u v <-> u mod p = 1 \/ u mod p = p - 1 \/ v mod p = 1 \/ v mod p = p - 1) /\ ~ on_edwards p 1 1 x y.
Proof. exact c90_ed25519_refuted. Qed.
Print Assumptions C90_ed25519_refuted.

(** M511 has no coefficient a; exactly one value makes the generator a point, and with it n is the order *)
Theorem C90_m511_refuted : exists p x y n h, let c := cls_M511 in
  int_attr c "p" = Ok p /\ int_attr c "a" = Raise AttributeError /\ int_attr c "xG" = Ok x /\ int_attr c "yG" = Ok y /\ int_attr c "n" = Ok n /\ int_attr c "h" = Ok h /\
  mg_generator c = Raise AttributeError /\ prime p /\ prime n /\ (forall a, 0 <= a < p -> (mg_point p a x y = Ok (x, y) <-> a = 530438)) /\
  (530438 * 530438 - 4) mod p <> 0 /\ mg_order p 530438 1 (Some (x, y)) n /\ (n * h - p - 1) ^ 2 <= 4 * p.
Proof. exact c90_m511_refuted. Qed.
Print Assumptions C90_m511_refuted.

(** no class of the three lists can be called, and the generator method fails on every Edwards class *)
Theorem C90_construct_refuted : exists fuel0, forall fuel, (fuel0 <= fuel)%nat ->
  (forall c, In c (twistedEdwardsCurves ++ edwardsCurves) -> te_class_init fuel c = Raise AssertionError) /\
  (forall c, In c montgomeryCurves -> mg_class_init fuel c = if String.eqb (cls_name c) "M511" then Raise AttributeError else Raise AssertionError).
Proof. exact c90_construct_refuted. Qed.
Print Assumptions C90_construct_refuted.

Theorem C90_generator_refuted : forall c, In c (twistedEdwardsCurves ++ edwardsCurves) -> te_generator c = Raise AssertionError.
Proof. exact c90_generator_refuted. Qed.
Print Assumptions C90_generator_refuted.

Example C90_construct_example : In cls_E521 (twistedEdwardsCurves ++ edwardsCurves) /\ In cls_M511 montgomeryCurves /\ te_class_init 600 cls_E521 = Raise AssertionError /\ te_generator cls_E521 = Raise AssertionError /\ mg_class_init 600 cls_M511 = Raise AttributeError.
Proof. split; [right; right; right; left; exact eq_refl|]. split; [right; right; left; exact eq_refl|]. repeat split; vm_compute; reflexivity. Qed.
