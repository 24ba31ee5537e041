(** Properties of the parameters of the built-in curves (ecc/curves.py, ecc/ellipticcurve.py). *)
From Coq Require Import ZArith List String Znumtheory.
From Verif Require Import Model.Py Model.Ecc Model.Curves Spec.CurveSpec Spec.CurveView Spec.CurveClasses Proofs.CurveTable Proofs.CurveParamFacts.
Import ListNotations.
Local Open Scope Z_scope.
Local Open Scope string_scope.

(** C71 *)
Theorem C71_coord_size : forall p, 0 <= p -> exists fuel0 s, forall fuel, (fuel0 <= fuel)%nat ->
  coord_size fuel p = Ok s /\ 0 <= s /\ p < 256 ^ s /\ (0 < p -> 256 ^ (s - 1) <= p).
Proof. exact c71_coord_size. Qed.
Print Assumptions C71_coord_size.

Theorem C71_parameters : forall c, short_weierstrass c -> exists p a b n x y,
  class_curve c = Ok (Curve p a b n) /\ int_attr c "xG" = Ok x /\ int_attr c "yG" = Ok y /\
  prime p /\ 3 < p /\ 0 <= a < p /\ 0 <= b < p /\ 0 <= x < p /\ 0 <= y < p /\ nonsingular p a b /\
  generator c = Ok (Aff x y) /\ on_ec p a b (Some (x, y)) /\ 0 < n /\ ec_multiple p a (Some (x, y)) (Z.to_nat n) None.
Proof. exact c71_parameters. Qed.
Print Assumptions C71_parameters.

Theorem C71_order : forall c, short_weierstrass c -> cls_name c <> "GOSTmsg05975sw" -> exists p a b n x y,
  class_curve c = Ok (Curve p a b n) /\ generator c = Ok (Aff x y) /\ 0 <= y < p /\ prime p /\ prime n /\ elliptic (Curve p a b n) /\ valid (Curve p a b n) (Aff x y) /\ ec_order p a (Some (x, y)) n.
Proof. exact c71_order. Qed.
Print Assumptions C71_order.

Theorem C71_refuted : exists c p a b n x y, In c smallWeierstrassCurves /\ class_curve c = Ok (Curve p a b n) /\ generator c = Ok (Aff x y) /\
  ~ prime n /\ prime (n / 4) /\ ec_order p a (Some (x, y)) (n / 4) /\ ~ ec_order p a (Some (x, y)) n.
Proof. exact c71_refuted. Qed.
Print Assumptions C71_refuted.


Lemma nist_p521 : short_weierstrass cls_NIST_P521.
Proof.
  split; [unfold module_classes; repeat (first [left; reflexivity|right])|]. right. exists cls_SECP_521r1.
  split; [unfold module_classes; repeat (first [left; reflexivity|right])|]. split; reflexivity.
Qed.
Example C71_example : short_weierstrass cls_NIST_P521 /\ cls_name cls_NIST_P521 <> "GOSTmsg05975sw" /\ int_attr cls_NIST_P521 "p" = Ok (2 ^ 521 - 1)%Z /\
  ~ short_weierstrass cls_Curve25519 /\ coord_size 100 (2 ^ 521 - 1) = Ok 66%Z.
Proof.
  split; [exact nist_p521|]. split; [discriminate|]. split; [vm_compute; reflexivity|]. split; [|vm_compute; reflexivity].
  intros (_ & [[H|[H|[]]]|(d & I & E & F)]); try discriminate.
  unfold module_classes in I. cbn [In] in I. repeat (destruct I as [<-|I]; [discriminate|]). destruct I.
Qed.

(** C61 *)
Theorem C61_builtin : forall c E G, short_weierstrass c -> cls_name c <> "GOSTmsg05975sw" -> class_curve c = Ok E -> generator c = Ok G ->
  exists fuel0, forall fuel, (fuel0 <= fuel)%nat -> forall k,
  exists R, scalar_multiple fuel E G k = Ok R /\ valid E R /\ ec_zmultiple (c_p E) (c_a E) (denotes E G) k (denotes E R).
Proof. exact c61_builtin. Qed.
Print Assumptions C61_builtin.


Example C61_builtin_example : int_attr cls_NIST_P521 "xG" = int_attr cls_SECP_521r1 "xG" /\ In cls_SECP_521r1 allCurves.
Proof. split; [reflexivity|]. apply allCurves_in. split; [unfold module_classes; repeat (first [left; reflexivity|right])|left; reflexivity]. Qed.

(** C77 *)
Theorem C77_builtin : forall c E G, short_weierstrass c -> cls_name c <> "GOSTmsg05975sw" -> class_curve c = Ok E -> generator c = Ok G ->
  exists fuel0, forall fuel, (fuel0 <= fuel)%nat -> forall a b,
  exists A B K, scalar_multiple fuel E G a = Ok A /\ scalar_multiple fuel E G b = Ok B /\
    scalar_multiple fuel E B a = Ok K /\ scalar_multiple fuel E A b = Ok K /\ ec_zmultiple (c_p E) (c_a E) (denotes E G) (a * b) (denotes E K).
Proof. exact c77_builtin. Qed.
Print Assumptions C77_builtin.


Example C77_builtin_example : exists c E, class_curve c = Ok E /\ short_weierstrass c /\ cls_name c <> "GOSTmsg05975sw".
Proof. exists cls_NIST_P521. eexists. split; [vm_compute; reflexivity|]. split; [exact nist_p521|discriminate]. Qed.
