(** The curve tests' known answers (C89): secp256k1 and BIP 32 multiples, P-192 and P-521 multiples, the Curve25519 key exchange.  The vectors are in Spec/CurveVectorSpec.v and Spec/VectorSpec.v. *)
From Coq Require Import ZArith List Bool String.
From Verif Require Import Model.Py Model.NumberTheory Model.Ecc Model.Curves Spec.VectorSpec Spec.CurveVectorSpec Proofs.VectorCurve.
Import ListNotations.
Local Open Scope string_scope.
Local Open Scope Z_scope.

(** test_sec256k1.py: m G for every vector, and the x-coordinate of the BIP 32 public key *)
Theorem C89_secp256k1 : exists E G, class_curve cls_SECP_256k1 = Ok E /\ generator cls_SECP_256k1 = Ok G /\ exists fuel0, forall fuel, (fuel0 <= fuel)%nat ->
  (forall m X Y, In (m, (X, Y)) secp256k1_vectors -> scalar_multiple fuel E G m = Ok (Aff X Y)) /\
  (let '(m, X) := bip32_vector in exists Y, scalar_multiple fuel E G m = Ok (Aff X Y)).
Proof. exact c89_secp256k1. Qed.
Print Assumptions C89_secp256k1.

(** test_nist_curves.py: 2 S, d S and d S + e T on P-192 *)
Theorem C89_p192_scalar : exists E, class_curve cls_NIST_P192 = Ok E /\ exists fuel0, forall fuel, (fuel0 <= fuel)%nat ->
  let '((xS, yS), (xT, yT), _, _, (xD, yD)) := p192_points in let '(d, e, (xR, yR), (xJ, yJ)) := p192_scalar in
  scalar_multiple fuel E (Aff xS yS) 2 = Ok (Aff xD yD) /\ scalar_multiple fuel E (Aff xS yS) d = Ok (Aff xR yR) /\
  (do A <- scalar_multiple fuel E (Aff xS yS) d; do b <- scalar_multiple fuel E (Aff xT yT) e; add_points fuel E A b) = Ok (Aff xJ yJ).
Proof. exact c89_p192_scalar. Qed.
Print Assumptions C89_p192_scalar.

(** test_nist_curves.py: S + T, S - T, 2 S, d S and d S + e T on P-521 *)
Theorem C89_p521 : exists E, class_curve cls_NIST_P521 = Ok E /\ exists fuel0, forall fuel, (fuel0 <= fuel)%nat ->
  (let '((xS, yS), (xT, yT), (xA, yA), (xB, yB), _) := p521_points in
   mk_point E xS yS = Ok (Aff xS yS) /\ mk_point E xT yT = Ok (Aff xT yT) /\
   add_points fuel E (Aff xS yS) (Aff xT yT) = Ok (Aff xA yA) /\ sub_points fuel E (Aff xS yS) (Aff xT yT) = Ok (Aff xB yB)) /\
  (let '((xS, yS), (xT, yT), _, _, (xD, yD)) := p521_points in let '(d, e, (xR, yR), (xJ, yJ)) := p521_scalar in
   scalar_multiple fuel E (Aff xS yS) 2 = Ok (Aff xD yD) /\ scalar_multiple fuel E (Aff xS yS) d = Ok (Aff xR yR) /\
   (do A <- scalar_multiple fuel E (Aff xS yS) d; do b <- scalar_multiple fuel E (Aff xT yT) e; add_points fuel E A b) = Ok (Aff xJ yJ)).
Proof. exact c89_p521. Qed.
Print Assumptions C89_p521.

(** test_curve25519.py: both public keys and the shared secret, computed by either side *)
Theorem C89_curve25519 : let '(dA, dB, xA, xB, xS) := curve25519_vector in exists p a xG, int_attr cls_Curve25519 "p" = Ok p /\ int_attr cls_Curve25519 "a" = Ok a /\ int_attr cls_Curve25519 "xG" = Ok xG /\
  montgomery_ladder p a dA xG = xA /\ montgomery_ladder p a dB xG = xB /\ montgomery_ladder p a dA xB = xS /\ montgomery_ladder p a dB xA = xS.
Proof. exact c89_curve25519. Qed.
Print Assumptions C89_curve25519.

(** the scalars are of full size and inside the range of the class *)
Example C89_curve_example : List.length secp256k1_vectors = 5%nat /\ Forall (fun v => 2 ^ 250 < fst v < 2 ^ 256) secp256k1_vectors /\ 2 ^ 250 < fst bip32_vector < 2 ^ 256 /\
  (let '(d, e, _, _) := p521_scalar in 2 ^ 520 < d < 2 ^ 521 /\ 2 ^ 520 < e < 2 ^ 521).
Proof. repeat split; repeat constructor. Qed.
