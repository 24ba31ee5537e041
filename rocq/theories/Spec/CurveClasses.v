(** Which classes of ecc/curves.py are short Weierstrass curves. *)
From Coq Require Import ZArith List String.
From Verif Require Import Model.Curves.
Import ListNotations.

(** a class derived from SmallWeierstrassCurveFp, directly, through KoblitzCurveFp or through a class of the module *)
Definition short_weierstrass (c : curve_class) : Prop :=
  In c module_classes /\
  (In (cls_base c) ["SmallWeierstrassCurveFp"; "KoblitzCurveFp"]%string \/
   exists d, In d module_classes /\ cls_base c = cls_name d /\ cls_base d = "SmallWeierstrassCurveFp"%string).

