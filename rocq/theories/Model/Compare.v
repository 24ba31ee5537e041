(** Operands that belong to different objects: field elements with their field (fmath/galoisfield.py) and points with
    their curve object (ecc/ellipticcurve.py), and the order operators that Python 2 derives from __cmp__. *)
From Coq Require Import ZArith List Bool.
From Verif Require Import Model.Py Model.GaloisField Model.Ecc.
Local Open Scope Z_scope.

(** Element_of_GFp with the attributes gf.p and value, fmath/galoisfield.py:35-40 *)
Record element := Element { el_p : Z; el_v : Z }.
(** the factory self.gf(...) used by every operator, fmath/galoisfield.py:24-26 *)
Definition in_field (p : Z) (r : res Z) : res element := do v <- r; Ok (Element p v).
Definition el_new (p value : Z) : res element := in_field p (gf p value).
(** the binary operators on two elements: Python 2 calls the method of the left operand, fmath/galoisfield.py:42-67 *)
Definition el_add (x y : element) : res element := in_field (el_p x) (e_add (el_p x) (el_v x) (Elt (el_v y))).
Definition el_sub (x y : element) : res element := in_field (el_p x) (e_sub (el_p x) (el_v x) (Elt (el_v y))).
Definition el_mul (x y : element) : res element := in_field (el_p x) (e_mul (el_p x) (el_v x) (Elt (el_v y))).
Definition el_div (fuel : nat) (x y : element) : res element := in_field (el_p x) (e_div fuel (el_p x) (el_v x) (Elt (el_v y))).
(** __cmp__, fmath/galoisfield.py:75-79: the field is not compared *)
Definition el_cmp (x y : element) : Z := e_cmp (el_v x) (Elt (el_v y)).

(** A point with the identity of its curve object; the curve of an object never changes *)
Record opoint := OPoint { op_obj : Z; op_pt : point }.
(** Point.__cmp__, ecc/ellipticcurve.py:76-81: curve objects define no comparison, so [==] on them is identity *)
Definition op_cmp (P Q : opoint) : Z := if (op_obj P =? op_obj Q) && point_eqb (op_pt P) (op_pt Q) then 0 else 1.
(** Point.__add__, __neg__, __sub__, ecc/ellipticcurve.py:67-74; [curves] gives the curve of every object *)
Definition op_add (fuel : nat) (curves : Z -> curve) (P Q : opoint) : res opoint :=
  do R <- point_add fuel (curves (op_obj P)) (op_obj P) (op_obj Q) (op_pt P) (op_pt Q); Ok (OPoint (op_obj P) R).
Definition op_neg (curves : Z -> curve) (P : opoint) : res opoint :=
  do R <- negate (curves (op_obj P)) (op_pt P); Ok (OPoint (op_obj P) R).
Definition op_sub (fuel : nat) (curves : Z -> curve) (P Q : opoint) : res opoint :=
  do N <- op_neg curves Q; op_add fuel curves P N.
(** Point.__mul__, __rmul__, ecc/ellipticcurve.py:83-88 *)
Definition op_mul (fuel : nat) (curves : Z -> curve) (P : opoint) (k : Z) : res opoint :=
  do R <- scalar_multiple fuel (curves (op_obj P)) (op_pt P) k; Ok (OPoint (op_obj P) R).
(** IDENTITY of an object, ecc/ellipticcurve.py:50 and ecc/ecc.py:107-112 *)
Definition op_identity (o : Z) : opoint := OPoint o Inf.

(** [a == b], [a < b], [a > b], [a <= b], [a >= b] from [cmp a b] *)
Definition cmp_eq (c : Z) : bool := c =? 0.
Definition cmp_lt (c : Z) : bool := c <? 0.
Definition cmp_gt (c : Z) : bool := 0 <? c.
Definition cmp_le (c : Z) : bool := c <=? 0.
Definition cmp_ge (c : Z) : bool := 0 <=? c.
