(** Points on short Weierstrass curves: C59-C67 and key agreement C77. *)
From Coq Require Import ZArith Znumtheory List Bool Lia.
From Verif Require Import Model.Py Model.NumberTheory Model.Ecc Spec.NumberSpec Spec.CurveSpec Spec.CurveView Proofs.NTBasic Proofs.CurveFacts.
Import ListNotations.
Local Open Scope Z_scope.

(** C59 *)
Theorem C59_closed : forall c P Q, prime (c_p c) -> 3 < c_p c -> valid c P -> valid c Q -> exists fuel0, forall fuel, (fuel0 <= fuel)%nat ->
  exists R, add_points fuel c P Q = Ok R /\ on_curve c R = true /\ valid c R /\ ec_sum (c_p c) (c_a c) (denotes c P) (denotes c Q) (denotes c R) /\ add_points fuel c Q P = Ok R.
Proof. exact c59_closed. Qed.
Print Assumptions C59_closed.

Example C59_closed_example : valid (c23 7) (Aff 3 10) /\ valid (c23 7) (Aff 9 (-7)) /\ add_points 50 (c23 7) (Aff 3 10) (Aff 9 7) = Ok (Aff 17 20) /\
  add_points 50 (c23 7) (Aff 3 10) (Aff 9 (-7)) = Ok (Aff 12 4) /\ add_points 50 (c23 7) (Aff 3 10) (Aff 3 13) = Ok Inf.
Proof. repeat split; vm_compute; congruence || reflexivity. Qed.
Theorem C59_double : forall c x y, prime (c_p c) -> 3 < c_p c -> valid c (Aff x y) -> y mod c_p c <> 0 -> exists fuel0, forall fuel, (fuel0 <= fuel)%nat ->
  exists R, double_point fuel c (Aff x y) = Ok R /\ valid c R /\ ec_sum (c_p c) (c_a c) (denotes c (Aff x y)) (denotes c (Aff x y)) (denotes c R) /\
    add_points fuel c (Aff x y) (Aff x y) = Ok R.
Proof. exact c59_double. Qed.
Print Assumptions C59_double.

Example C59_double_example : double_point 50 (c23 7) (Aff 3 10) = Ok (Aff 7 12) /\ ec_sum 23 1 (Some (3, 10)) (Some (3, 10)) (Some (7, 12)).
Proof. split; [reflexivity|]. apply sum_tangent with (l := 6); [lia|reflexivity|]. repeat split; reflexivity || lia. Qed.
Theorem C59_negate : forall c x y, prime (c_p c) -> 3 < c_p c -> valid c (Aff x y) ->
  exists N, negate c (Aff x y) = Ok N /\ valid c N /\ denotes c N = ec_neg (c_p c) (denotes c (Aff x y)).
Proof. exact c59_negate. Qed.
Print Assumptions C59_negate.

Example C59_negate_example : negate (c23 7) (Aff 3 10) = Ok (Aff 3 (-10)) /\ denotes (c23 7) (Aff 3 (-10)) = Some (3, 13).
Proof. auto. Qed.
Theorem C59_neutral : forall c fuel P, add_points fuel c P Inf = Ok P /\ add_points fuel c Inf P = Ok P.
Proof. exact c59_neutral. Qed.
Print Assumptions C59_neutral.

Theorem C59_constructor : forall c x y, prime (c_p c) ->
  mk_point c x y = if (y * y - (x * x * x + c_a c * x + c_b c)) mod c_p c =? 0 then Ok (Aff x y) else Raise AssertionError.
Proof. exact c59_constructor. Qed.
Print Assumptions C59_constructor.

Example C59_constructor_example : mk_point (c23 7) 3 10 = Ok (Aff 3 10) /\ mk_point (c23 7) 3 11 = Raise AssertionError.
Proof. auto. Qed.

(** C60 *)
Theorem C60_group : forall p a b, prime p -> 3 < p -> nonsingular p a b ->
  (forall P Q, on_ec p a b P -> on_ec p a b Q -> exists R, on_ec p a b R /\ ec_sum p a P Q R /\ forall R', ec_sum p a P Q R' -> R' = R) /\
  (forall P Q R, on_ec p a b P -> on_ec p a b Q -> ec_sum p a P Q R -> ec_sum p a Q P R) /\
  (forall P, on_ec p a b P -> on_ec p a b (ec_neg p P) /\ ec_sum p a P None P /\ ec_sum p a P (ec_neg p P) None) /\
  (forall P Q R PQ QR S, on_ec p a b P -> on_ec p a b Q -> on_ec p a b R ->
     ec_sum p a P Q PQ -> ec_sum p a Q R QR -> (ec_sum p a PQ R S <-> ec_sum p a P QR S)).
Proof. exact c60_group. Qed.
Print Assumptions C60_group.

Theorem C60_associative : forall c P Q R, elliptic c -> valid c P -> valid c Q -> valid c R -> exists fuel0, forall fuel, (fuel0 <= fuel)%nat ->
  exists PQ QR U V, add_points fuel c P Q = Ok PQ /\ add_points fuel c PQ R = Ok U /\ add_points fuel c Q R = Ok QR /\ add_points fuel c P QR = Ok V /\ denotes c U = denotes c V.
Proof. exact c60_associative. Qed.
Print Assumptions C60_associative.

Theorem C60_inverse : forall c x y fuel, prime (c_p c) -> 3 < c_p c -> valid c (Aff x y) ->
  exists N, negate c (Aff x y) = Ok N /\ add_points fuel c (Aff x y) N = Ok Inf /\ sub_points fuel c (Aff x y) (Aff x y) = Ok Inf.
Proof. exact c60_inverse. Qed.
Print Assumptions C60_inverse.


Example C60_example : elliptic (c23 7) /\ (do R <- add_points 50 (c23 7) (Aff 3 10) (Aff 9 7); add_points 50 (c23 7) R (Aff 13 16)) = Ok (Aff 17 3) /\
  (do R <- add_points 50 (c23 7) (Aff 9 7) (Aff 13 16); add_points 50 (c23 7) (Aff 3 10) R) = Ok (Aff 17 3).
Proof. split; [apply c23_elliptic|]. split; reflexivity. Qed.

(** C61 *)
Theorem C61_scalar_multiple : forall c P, elliptic c -> valid c P -> ec_order (c_p c) (c_a c) (denotes c P) (c_n c) -> exists fuel0, forall fuel, (fuel0 <= fuel)%nat -> forall k,
  if (c_n c mod 4 =? 0) && (k mod c_n c =? c_n c - 1) then scalar_multiple fuel c P k = Raise AssertionError
  else exists R, scalar_multiple fuel c P k = Ok R /\ valid c R /\ ec_zmultiple (c_p c) (c_a c) (denotes c P) k (denotes c R).
Proof. exact c61_scalar_multiple. Qed.
Print Assumptions C61_scalar_multiple.

Theorem C61_prime_order : forall c P, elliptic c -> prime (c_n c) -> valid c P -> P <> Inf -> ec_multiple (c_p c) (c_a c) (denotes c P) (Z.to_nat (c_n c)) None ->
  exists fuel0, forall fuel, (fuel0 <= fuel)%nat -> forall k,
  exists R, scalar_multiple fuel c P k = Ok R /\ valid c R /\ ec_zmultiple (c_p c) (c_a c) (denotes c P) k (denotes c R).
Proof. exact c61_prime_order. Qed.
Print Assumptions C61_prime_order.


(** n = 28 is a multiple of 4, n = 7 is prime *)
Example C61_example : ec_order 23 1 (Some (3, 10)) 28 /\ ec_order 23 1 (Some (13, 16)) 7 /\
  scalar_multiple 50 (c23 28) (Aff 3 10) 27 = Raise AssertionError /\ scalar_multiple 50 (c23 28) (Aff 3 10) (-27) = Ok (Aff 3 10) /\
  scalar_multiple 50 (c23 28) (Aff 3 10) 26 = Ok (Aff 7 11) /\ scalar_multiple 50 (c23 7) (Aff 13 16) (-1) = Ok (Aff 13 7) /\ scalar_multiple 50 (c23 7) (Aff 13 16) 100 = Ok (Aff 5 19).
Proof. split; [exact order23|]. split; [exact order23_13_16|]. vm_compute. auto 10. Qed.

(** C62 *)
Theorem C62_any_point : forall fuel c P, c_n c <> 0 -> scalar_multiple fuel c P (c_n c) = Ok Inf.
Proof. exact c62_any_point. Qed.
Print Assumptions C62_any_point.

Theorem C62_refuted : exists c P, elliptic c /\ prime (c_n c) /\ valid c P /\ P <> Inf /\ (forall fuel, scalar_multiple fuel c P (c_n c) = Ok Inf) /\
  ~ ec_multiple (c_p c) (c_a c) (denotes c P) (Z.to_nat (c_n c)) None.
Proof. exact c62_refuted. Qed.
Print Assumptions C62_refuted.


Example C62_example : scalar_multiple 50 (c23 7) (Aff 3 10) 7 = Ok Inf /\ scalar_multiple 50 (c23 1000) (Aff 3 10) 1000 = Ok Inf /\ add_times 50 (c23 7) (Aff 3 10) 7 <> Ok Inf.
Proof. repeat split; vm_compute; congruence || reflexivity. Qed.

(** C63 *)
Theorem C63_refuted : exists c G P k R, elliptic c /\ prime (c_n c) /\ valid c G /\ ec_order (c_p c) (c_a c) (denotes c G) (c_n c) /\ valid c P /\
  (forall fuel, (100 <= fuel)%nat -> scalar_multiple fuel c P k = Ok R) /\ ~ ec_zmultiple (c_p c) (c_a c) (denotes c P) k (denotes c R).
Proof. exact c63_refuted. Qed.
Print Assumptions C63_refuted.


(** C64 *)
Theorem C64_refuted : forall c x y, prime (c_p c) -> valid c (Aff x y) -> exists fuel0, forall fuel, (fuel0 <= fuel)%nat ->
  mk_point c x y = Ok (Aff x y) /\ mk_point c (x + c_p c) y = Ok (Aff (x + c_p c) y) /\ point_eqb (Aff x y) (Aff (x + c_p c) y) = false /\
  add_points fuel c (Aff x y) (Aff (x + c_p c) y) = Raise AssertionError /\
  mk_point c x (y + c_p c) = Ok (Aff x (y + c_p c)) /\ point_eqb (Aff x y) (Aff x (y + c_p c)) = false.
Proof. exact c64_refuted. Qed.
Print Assumptions C64_refuted.


Example C64_example : mk_point (c23 7) 26 10 = Ok (Aff 26 10) /\ add_points 50 (c23 7) (Aff 3 10) (Aff 26 10) = Raise AssertionError.
Proof. auto. Qed.

(** C65 *)
Theorem C65_refuted : forall c fuel P, negate c Inf = Raise TypeError /\ double_point fuel c Inf = Raise TypeError /\ sub_points fuel c P Inf = Raise TypeError.
Proof. exact c65_refuted. Qed.
Print Assumptions C65_refuted.

Theorem C65_order_two_refuted : forall c x y, prime (c_p c) -> 3 < c_p c -> valid c (Aff x y) -> y mod c_p c = 0 -> exists fuel0, forall fuel, (fuel0 <= fuel)%nat ->
  ec_sum (c_p c) (c_a c) (denotes c (Aff x y)) (denotes c (Aff x y)) None /\ double_point fuel c (Aff x y) = Raise AssertionError.
Proof. exact c65_order_two_refuted. Qed.
Print Assumptions C65_order_two_refuted.


Example C65_example : valid (c23 28) (Aff 4 0) /\ double_point 50 (c23 28) (Aff 4 0) = Raise AssertionError /\ add_points 50 (c23 28) (Aff 4 0) (Aff 4 0) = Ok Inf.
Proof. repeat split; vm_compute; congruence || reflexivity. Qed.

(** C66 *)
Theorem C66_y_from_x : forall c maxlist x, prime (c_p c) -> c_p c mod 8 <> 1 \/ c_p c - 2 <= maxlist -> exists fuel0, forall fuel, (fuel0 <= fuel)%nat ->
  ((exists y, mk_point c x y = Ok (Aff x y)) -> exists y, y_from_x fuel c maxlist x = Ok y /\ 0 <= y < c_p c /\ mk_point c x y = Ok (Aff x y)) /\
  (~ (exists y, mk_point c x y = Ok (Aff x y)) -> y_from_x fuel c maxlist x = Raise SquareRootError).
Proof. exact c66_y_from_x. Qed.
Print Assumptions C66_y_from_x.


Example C66_example : y_from_x 50 (c23 7) 0 3 = Ok 13 /\ y_from_x 50 (c23 7) 0 2 = Raise SquareRootError /\ y_from_x 50 (c23 7) 0 (-20) = Ok 13 /\ mk_point (c23 7) (-20) 13 = Ok (Aff (-20) 13).
Proof. vm_compute. auto. Qed.

(** C67 *)
Theorem C67_refuted : forall P, point_encode true P = Raise NameError /\ point_encode false P = Raise GenericException /\ point_toOctets P = Raise NameError.
Proof. exact c67_refuted. Qed.
Print Assumptions C67_refuted.


(** C77 *)
Theorem C77_key_agreement : forall c x y, elliptic c -> prime (c_n c) -> valid c (Aff x y) -> 0 <= y < c_p c ->
  ec_multiple (c_p c) (c_a c) (denotes c (Aff x y)) (Z.to_nat (c_n c)) None -> exists fuel0, forall fuel, (fuel0 <= fuel)%nat -> forall a b,
  exists A B K, scalar_multiple fuel c (Aff x y) a = Ok A /\ scalar_multiple fuel c (Aff x y) b = Ok B /\
    scalar_multiple fuel c B a = Ok K /\ scalar_multiple fuel c A b = Ok K /\ ec_zmultiple (c_p c) (c_a c) (denotes c (Aff x y)) (a * b) (denotes c K).
Proof. exact c77_key_agreement. Qed.
Print Assumptions C77_key_agreement.


Example C77_example : valid (c23 7) (Aff 13 16) /\ ec_multiple 23 1 (Some (13, 16)) 7 None /\
  (do B <- scalar_multiple 50 (c23 7) (Aff 13 16) 3; scalar_multiple 50 (c23 7) B 5) = (do A <- scalar_multiple 50 (c23 7) (Aff 13 16) 5; scalar_multiple 50 (c23 7) A 3) /\
  (do A <- scalar_multiple 50 (c23 7) (Aff 13 16) 5; scalar_multiple 50 (c23 7) A 3) = Ok (Aff 13 16).
Proof. split; [repeat split; vm_compute; congruence|]. split; [exact (proj1 (proj2 order23_13_16))|]. split; vm_compute; reflexivity. Qed.
