(** Families among the classes of ecc/curves.py. *)
From Coq Require Import List.
From Verif Require Import Model.Curves.
Import ListNotations.

(** the curves with attributes seed and seed_c *)
Definition nist_curves : list curve_class := [cls_SECP_192r1; cls_SECP_224r1; cls_SECP_256r1; cls_SECP_384r1; cls_SECP_521r1].
(** the Brainpool curves with their twists *)
Definition brainpool_pairs : list (curve_class * curve_class) :=
  [(cls_BrainPoolP160r1, cls_BrainPoolP160t1); (cls_BrainPoolP192r1, cls_BrainPoolP192t1); (cls_BrainPoolP224r1, cls_BrainPoolP224t1); (cls_BrainPoolP256r1, cls_BrainPoolP256t1);
   (cls_BrainPoolP320r1, cls_BrainPoolP320t1); (cls_BrainPoolP384r1, cls_BrainPoolP384t1); (cls_BrainPoolP512r1, cls_BrainPoolP512t1)].
