(** Properties of the table of built-in curves (ecc/curves.py). *)
From Coq Require Import ZArith List String Znumtheory.
From Verif Require Import Model.Py Model.Ecc Model.Curves Proofs.CurveTable.
Import ListNotations.
Local Open Scope Z_scope.

(** C72 *)
Theorem C72_refuted : exists c d s, In c allCurves /\ In d allCurves /\ cls_name c <> cls_name d /\
  int_attr c "p" <> int_attr d "p" /\ curve_id c = Ok s /\ curve_id d = Ok s.
Proof. exact c72_refuted. Qed.
Print Assumptions C72_refuted.

Theorem C72_only : forall c d s, In c module_classes -> In d module_classes ->
  curve_id c = Ok s -> curve_id d = Ok s ->
  c = d \/ (cls_name c = "SECP_256r1" /\ cls_name d = "SECP_521r1")%string
        \/ (cls_name c = "SECP_521r1" /\ cls_name d = "SECP_256r1")%string.
Proof. exact c72_only. Qed.
Print Assumptions C72_only.

Theorem C72_defined : forall c, In c module_classes -> exists s, curve_id c = Ok s.
Proof. exact c72_defined. Qed.
Print Assumptions C72_defined.

Theorem C72_class_names : NoDup (map cls_name module_classes) /\ List.length module_classes = 45%nat /\ List.length allCurves = 40%nat.
Proof. exact c72_class_names. Qed.
Print Assumptions C72_class_names.


Example C72_example : curve_id cls_NIST_P521 = Ok "nistP521"%string /\ curve_id cls_SECP_521r1 = Ok "secp256r1"%string /\
  int_attr cls_NIST_P521 "p" = Ok (2 ^ 521 - 1) /\ get_attr cls_M511 "a" = Raise AttributeError /\
  map cls_name koblitzCurves = ["SECP_256k1"%string].
Proof. vm_compute. auto. Qed.
