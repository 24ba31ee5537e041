(** Instances of the built-in Edwards and Montgomery classes of ecc/curves.py. *)
From Coq Require Import ZArith String.
From Verif Require Import Model.Py Model.NumberTheory Model.Ecc Model.Curves.
Local Open Scope Z_scope.
Local Open Scope string_scope.

(** Calling the class: EllipticCurveFp.__init__, ecc/ellipticcurve.py:39-49, computes coord_size from
    self.p and then calls self.identity(), whose point is checked by on_curve (ecc/ecc.py:140-146 and 199-203);
    on_curve reads the attributes d, a, p in this order, and a, p on a Montgomery curve.  The value is
    coord_size and IDENTITY. *)
Definition te_class_init (fuel : nat) (c : curve_class) : res (Z * (Z * Z)) :=
  do p <- int_attr c "p"; do s <- coord_size fuel p;
  do d <- int_attr c "d"; do a <- int_attr c "a"; do i <- te_identity p a d; Ok (s, i).
Definition mg_class_init (fuel : nat) (c : curve_class) : res (Z * (Z * Z)) :=
  do p <- int_attr c "p"; do s <- coord_size fuel p;
  do a <- int_attr c "a"; do i <- mg_identity p a; Ok (s, i).
(** generator, ecc/ellipticcurve.py:32-34, on an object of the class that has not run the constructor *)
Definition te_generator (c : curve_class) : res (Z * Z) :=
  do x <- int_attr c "xG"; do y <- int_attr c "yG";
  do d <- int_attr c "d"; do a <- int_attr c "a"; do p <- int_attr c "p"; te_point p a d x y.
Definition mg_generator (c : curve_class) : res (Z * Z) :=
  do x <- int_attr c "xG"; do y <- int_attr c "yG";
  do a <- int_attr c "a"; do p <- int_attr c "p"; mg_point p a x y.
