(** Transcription of fmath/galoisfield.py. *)
From Coq Require Import ZArith List Bool.
From Verif Require Import Model.Py.
Import ListNotations.
Local Open Scope Z_scope.

(** An operand: an element of the field or a plain integer.  Operands from a
    different field are not modelled. *)
Inductive operand := Elt (value : Z) | Int (n : Z).
(** int(other), fmath/galoisfield.py:81-82 *)
Definition to_int (o : operand) : Z := match o with Elt v => v | Int n => n end.

(** fmath/galoisfield.py:88-93; [fuel] is the depth of the recursion *)
Fixpoint egcd (fuel : nat) (a b : Z) : res (Z * Z * Z) :=
  match fuel with
  | O => Raise OutOfFuel
  | S f =>
      if a =? 0 then Ok (b, 0, 1)
      else
        do r <- egcd f (b mod a) a;
        let '(g, y, x) := r in
        Ok (g, x - (b / a) * y, y)
  end.
(** fmath/galoisfield.py:95-100 *)
Definition inverse_mod (fuel : nat) (a m : Z) : res Z :=
  do r <- egcd fuel a m;
  let '(g, x, y) := r in
  if negb (g =? 1) then Raise GenericException else py_mod x m.

Section Field.
Context (fuel : nat) (p : Z).

(** GFp.__call__ and Element_of_GFp.__init__, fmath/galoisfield.py:24-26 and 38-40:
    the element is its attribute [value] *)
Definition gf (value : Z) : res Z := py_mod value p.

(** fmath/galoisfield.py:31-32 *)
Definition gf_inverse (x : Z) : res Z := inverse_mod fuel x p.
(** fmath/galoisfield.py:28-29: the name p is not defined *)
Definition gf_is_element (x : Z) : res bool := Raise NameError.

(** fmath/galoisfield.py:42-61 *)
Definition e_add (self : Z) (other : operand) : res Z := gf (self + to_int other).
Definition e_radd (self : Z) (other : operand) : res Z := gf (self + to_int other).
Definition e_neg (self : Z) : res Z := gf (- self).
Definition e_sub (self : Z) (other : operand) : res Z := gf (self - to_int other).
Definition e_rsub (self : Z) (other : operand) : res Z := gf (to_int other - self).
Definition e_mul (self : Z) (other : operand) : res Z := gf (self * to_int other).
Definition e_rmul (self : Z) (other : operand) : res Z := e_mul self other.
(** fmath/galoisfield.py:63-67 *)
Definition e_div (self : Z) (other : operand) : res Z :=
  do i <- gf_inverse (to_int other);
  do q <- e_mul self (Int i);
  gf q.
Definition e_rdiv (self : Z) (other : operand) : res Z :=
  do i <- gf_inverse self;
  gf (to_int other * i).
(** fmath/galoisfield.py:69-73.  A negative exponent gives a float in Python 2:
    not modelled. *)
Definition e_xor (self : Z) (other : operand) : res Z :=
  if to_int other <? 0 then Raise NotModelled else gf (self ^ to_int other).
Definition e_rxor (self : Z) (other : operand) : res Z := gf (to_int other ^ self).
(** fmath/galoisfield.py:75-79 and the operator == derived from it *)
Definition e_cmp (self : Z) (other : operand) : Z := if self =? to_int other then 0 else 1.
Definition e_eq (self : Z) (other : operand) : bool := e_cmp self other =? 0.
End Field.
