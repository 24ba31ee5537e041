(** ecc/ellipticcurve.py and ecc/ecc.py: points and curve arithmetic.

    A point is [Inf] (the object curve.IDENTITY, whose coordinates are None) or has integer
    coordinates.  Points with one coordinate None, which no function of the package creates, are
    not modelled.  All points of one computation belong to the same curve object except in
    [point_add], where the object is part of the point.  p is assumed positive, so that % never
    raises. *)
From Coq Require Import ZArith List Bool.
From Verif Require Import Model.Py Model.NumberTheory Model.Encoding.
Import ListNotations.
Local Open Scope Z_scope.

Inductive point := Inf | Aff (x y : Z).
(** Point.__cmp__, ecc/ellipticcurve.py:76-81, for points of the same curve: [==] *)
Definition point_eqb (P Q : point) : bool :=
  match P, Q with
  | Inf, Inf => true
  | Aff x y, Aff x' y' => (x =? x') && (y =? y')
  | _, _ => false
  end.

(** EllipticCurveFp.__init__, ecc/ellipticcurve.py:39-49: the loop computing coord_size *)
Fixpoint coord_size_loop (fuel : nat) (p size : Z) : res Z :=
  if 0 <? p then
    match fuel with
    | O => Raise OutOfFuel
    | S f => coord_size_loop f (p / 256) (size + 1)
    end
  else Ok size.
Definition coord_size (fuel : nat) (p : Z) : res Z :=
  do _ <- py_assert (0 <=? p); coord_size_loop fuel p 0.

(** ** SmallWeierstrassCurveFp, ecc/ecc.py:29-126 *)
Record curve := Curve { c_p : Z; c_a : Z; c_b : Z; c_n : Z }.

Section Weierstrass.
Context (fuel : nat) (c : curve).
Local Notation p := (c_p c).

(** on_curve, ecc/ecc.py:33-40 *)
Definition on_curve (P : point) : bool :=
  match P with
  | Inf => true
  | Aff x y => (y ^ 2) mod p =? (x ^ 3 + c_a c * x + c_b c) mod p
  end.
(** EllipticCurve.point, Point.__init__: ecc/ellipticcurve.py:28-30, 60-65 *)
Definition mk_point (x y : Z) : res point :=
  do _ <- py_assert (on_curve (Aff x y)); Ok (Aff x y).
(** EllipticCurveFp.inverse, ecc/ellipticcurve.py:51-55 *)
Definition inverse (a : Z) : res Z := inverse_mod fuel a p.

(** negate, ecc/ecc.py:63-65: -None raises TypeError *)
Definition negate (P : point) : res point :=
  match P with
  | Inf => Raise TypeError
  | Aff x y => mk_point x (- y)
  end.
(** double_point, ecc/ecc.py:67-75: 3*None raises TypeError *)
Definition double_point (P : point) : res point :=
  match P with
  | Inf => Raise TypeError
  | Aff x y =>
      do i <- inverse (2 * y);
      let l := ((3 * x * x + c_a c) * i) mod p in
      let x3 := (l * l - 2 * x) mod p in
      let y3 := (l * (x - x3) - y) mod p in
      mk_point x3 y3
  end.
(** add_points, ecc/ecc.py:42-61, for points of the same curve object *)
Definition add_points (P1 P2 : point) : res point :=
  match P2 with
  | Inf => Ok P1
  | Aff x2 y2 =>
      match P1 with
      | Inf => Ok P2
      | Aff x1 y1 =>
          if x1 =? x2 then
            if (y1 + y2) mod p =? 0 then Ok Inf else double_point P1
          else
            do i <- inverse (x2 - x1);
            let l := ((y2 - y1) * i) mod p in
            let x3 := (l * l - x1 - x2) mod p in
            let y3 := (l * (x1 - x3) - y1) mod p in
            mk_point x3 y3
      end
  end.
(** Point.__sub__, ecc/ellipticcurve.py:73-74 *)
Definition sub_points (P1 P2 : point) : res point :=
  do N <- negate P2; add_points P1 N.

(** leftmost_bit, ecc/ecc.py:80-84 *)
Fixpoint leftmost_loop (f : nat) (x result : Z) : res Z :=
  if result <=? x then
    match f with
    | O => Raise OutOfFuel
    | S f => leftmost_loop f x (2 * result)
    end
  else Ok result.
Definition leftmost_bit (x : Z) : res Z :=
  do _ <- py_assert (0 <? x);
  do result <- leftmost_loop fuel x 1;
  Ok (result / 2).
(** while loop ecc/ecc.py:98-104 *)
Fixpoint scalar_loop (f : nat) (P negative_self : point) (e e3 i : Z) (result : point) : res point :=
  if 1 <? i then
    match f with
    | O => Raise OutOfFuel
    | S f =>
        do result <- double_point result;
        do result <- (if negb (Z.land e3 i =? 0) && (Z.land e i =? 0) then add_points result P else Ok result);
        do result <- (if (Z.land e3 i =? 0) && negb (Z.land e i =? 0) then add_points result negative_self else Ok result);
        scalar_loop f P negative_self e e3 (i / 2) result
    end
  else Ok result.
(** scalar_multiple, ecc/ecc.py:77-105 *)
Definition scalar_multiple (P : point) (scalar : Z) : res point :=
  do e <- py_mod scalar (c_n c);
  if e =? 0 then Ok Inf
  else
    match P with
    | Inf => Ok Inf
    | Aff x y =>
        do _ <- py_assert (0 <? e);
        let e3 := 3 * e in
        do negative_self <- mk_point x (- y);
        do lb <- leftmost_bit e3;
        scalar_loop fuel P negative_self e e3 (lb / 2) P
    end.

(** y_from_x, ecc/ecc.py:114-123; [maxlist] is the limit of a Python list, see
    Model/NumberTheory.v *)
Definition y_from_x (maxlist : Z) (x : Z) : res Z :=
  let y_squared := ((x * x + c_a c) * x + c_b c) mod p in
  square_root_mod_prime maxlist fuel y_squared p.
(** new_private_key, ecc/ecc.py:125-126: [random] is the string returned by urandom(coord_size) *)
Definition new_private_key (random : str) : Z := string_to_int random.
End Weierstrass.

(** Point.__add__ and the assertion of add_points on two points with their curve objects
    (ecc/ellipticcurve.py:67-68, ecc/ecc.py:44): o and o' identify the objects, the curve of the
    first point is used. *)
Definition point_add (fuel : nat) (c : curve) (o o' : Z) (P Q : point) : res point :=
  do _ <- py_assert (o =? o'); add_points fuel c P Q.
(** Point.encode, Point.toOctets, ecc/ellipticcurve.py:99-108: int_to_string is neither defined
    nor imported in ellipticcurve.py *)
Definition point_encode (raw : bool) (P : point) : res str :=
  if raw then Raise NameError else Raise GenericException.
Definition point_toOctets (P : point) : res str := Raise NameError.

(** ** TwistedEdwardsCurveFp, ecc/ecc.py:136-185 *)
Section Edwards.
Context (fuel : nat) (p a d : Z).
(** on_curve, ecc/ecc.py:140-146 *)
Definition te_on_curve (x y : Z) : bool := (a * (x * x) - 1 + y * (1 - d * (x * x) * y)) mod p =? 0.
Definition te_point (x y : Z) : res (Z * Z) :=
  do _ <- py_assert (te_on_curve x y); Ok (x, y).
(** identity, ecc/ecc.py:183-185, called by the constructor *)
Definition te_identity : res (Z * Z) := te_point 0 (-1).
(** EllipticCurveFp.__init__ on this class: coord_size, then IDENTITY *)
Definition te_init : res (Z * (Z * Z)) :=
  do s <- coord_size fuel p; do i <- te_identity; Ok (s, i).
(** add_points, ecc/ecc.py:148-156 *)
Definition te_add (P1 P2 : Z * Z) : res (Z * Z) :=
  let '(x1, y1) := P1 in
  let '(x2, y2) := P2 in
  do i <- inverse_mod fuel (1 + d * x1 * x2 * y1 * y2) p;
  let x3 := ((x1 * y2 + x2 * y1) * i) mod p in
  do j <- inverse_mod fuel (1 - d * x1 * x2 * y1 * y2) p;
  let y3 := ((y1 * y2 - a * x1 * x2) * j) mod p in
  te_point x3 y3.
(** negate, ecc/ecc.py:158-160 *)
Definition te_negate (P : Z * Z) : res (Z * Z) := te_point (- fst P) (snd P).
(** double_point, ecc/ecc.py:162-165: the code after the first return is dead *)
Definition te_double (P : Z * Z) : res (Z * Z) := te_add P P.
(** scalar_multiple, ecc/ecc.py:174-181, with curve.IDENTITY given: the method scalarmult does
    not exist *)
Definition te_scalar_multiple (identity : Z * Z) (P : Z * Z) (scalar : Z) : res (Z * Z) :=
  if scalar =? 0 then Ok identity else Raise AttributeError.
End Edwards.

(** cswap, ecc/ecc.py:300-305 *)
Definition cswap (x2 x3 bit : Z) : Z * Z :=
  let dummy := bit * (x2 - x3) in
  (x2 - dummy, x3 + dummy).

(** ** MontgomeryCurveFp, ecc/ecc.py:195-298 *)
Section Montgomery.
Context (fuel : nat) (p a : Z).
(** on_curve, ecc/ecc.py:199-203 *)
Definition mg_on_curve (x y : Z) : bool := (y * y) mod p =? (x * (x * x) + a * (x * x) + x) mod p.
Definition mg_point (x y : Z) : res (Z * Z) :=
  do _ <- py_assert (mg_on_curve x y); Ok (x, y).
(** identity, ecc/ecc.py:250-252, called by the constructor *)
Definition mg_identity : res (Z * Z) := mg_point 0 (-1).
Definition mg_init : res (Z * (Z * Z)) :=
  do s <- coord_size fuel p; do i <- mg_identity; Ok (s, i).
Definition pair_eqb (P Q : Z * Z) : bool := (fst P =? fst Q) && (snd P =? snd Q).
(** double_point, ecc/ecc.py:230-239 *)
Definition mg_double (P : Z * Z) : res (Z * Z) :=
  let '(x1, y1) := P in
  do i <- inverse_mod fuel (2 * y1) p;
  let l := (3 * x1 * x1 + 2 * a * x1 + 1) * i in
  let x3 := l * l - a - 2 * x1 in
  let y3 := l * (x1 - x3) - y1 in
  mg_point (x3 mod p) (y3 mod p).
(** add_points, ecc/ecc.py:205-224, with curve.IDENTITY given *)
Definition mg_add (identity : Z * Z) (P1 P2 : Z * Z) : res (Z * Z) :=
  if pair_eqb P2 identity then Ok P1
  else if pair_eqb P1 identity then Ok P2
  else
    let '(x1, y1) := P1 in
    let '(x2, y2) := P2 in
    if x1 =? x2 then
      if y1 =? y2 then mg_double P1
      else do _ <- py_assert (y1 + y2 =? 0); Ok P1
    else
      do i <- inverse_mod fuel (x2 - x1) p;
      let l := (y2 - y1) * i in
      let x3 := l ^ 2 - a - x1 - x2 in
      let y3 := l * (x1 - x3) - y1 in
      mg_point (x3 mod p) (y3 mod p).
(** negate, ecc/ecc.py:226-228: the name p is not defined there *)
Definition mg_negate (P : Z * Z) : res (Z * Z) := Raise NameError.

(** scalar_multiple, ecc/ecc.py:241-248, with curve.IDENTITY given; the fuel bounds the depth of
    the recursion *)
Fixpoint mg_scalar_multiple (f : nat) (identity P : Z * Z) (scalar : Z) : res (Z * Z) :=
  if scalar =? 0 then Ok identity
  else
    match f with
    | O => Raise OutOfFuel
    | S f =>
        do q <- mg_scalar_multiple f identity P (scalar / 2);
        do q <- mg_add identity q q;
        if Z.land scalar 1 =? 0 then Ok q else mg_add identity q P
    end.

(** one round of montgomery_ladder, ecc/ecc.py:260-267 *)
Definition ladder_step (x1 scalar : Z) (st : Z * Z * Z * Z) (i : Z) : Z * Z * Z * Z :=
  let '(x2, z2, x3, z3) := st in
  let bit := Z.land 1 (Z.shiftr scalar i) in
  let '(x2, x3) := cswap x2 x3 bit in
  let '(z2, z3) := cswap z2 z3 bit in
  let '(x3, z3) := ((x2 * x3 - z2 * z3) ^ 2, x1 * (x2 * z3 - z2 * x3) ^ 2) in
  let '(x2, z2) := ((x2 ^ 2 - z2 ^ 2) ^ 2, 4 * x2 * z2 * (x2 ^ 2 + a * x2 * z2 + z2 ^ 2)) in
  let '(x2, x3) := cswap x2 x3 bit in
  let '(z2, z3) := cswap z2 z3 bit in
  (x2, z2, x3, z3).
(** montgomery_ladder, ecc/ecc.py:254-268: z2**(p-2) is an integer for p >= 2 *)
Definition montgomery_ladder (scalar x : Z) : Z :=
  let '(x2, z2, _, _) := fold_left (ladder_step x scalar) (rev (map Z.of_nat (seq 0 255))) (1, 0, x, 1) in
  (x2 * z2 ^ (p - 2)) mod p.
(** montgomery_ladder2, ecc/ecc.py:270-298: x_1 is not defined *)
Definition montgomery_ladder2 (scalar x : Z) : res Z := Raise NameError.
End Montgomery.
