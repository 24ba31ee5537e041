(** The string forms of points and field elements, and methods that are stubs or thin wrappers. *)
From Coq Require Import ZArith List Bool.
From Verif Require Import Model.Py Model.Ecc Model.Compare Model.Hmac.
Import ListNotations.
Local Open Scope Z_scope.

(** "%d" on an integer; the fuel bounds the number of digits *)
Fixpoint dec_digits (fuel : nat) (n : Z) : str :=
  match fuel with
  | O => []
  | S f => if n <? 10 then [48 + n] else dec_digits f (n / 10) ++ [48 + n mod 10]
  end.
Definition dec (z : Z) : str :=
  let ds := dec_digits (S (Z.to_nat (Z.log2 (Z.abs z)))) (Z.abs z) in if z <? 0 then 45 :: ds else ds.
(** "(%d,%d)" *)
Definition pair_str (x y : Z) : str := [40] ++ dec x ++ [44] ++ dec y ++ [41].
Definition identity_str : str := [73; 68; 69; 78; 84; 73; 84; 89].
(** Point.__str__, ecc/ellipticcurve.py:120-123 (it replaces the method of lines 90-92), on a SmallWeierstrassCurveFp *)
Definition point_str (P : point) : str := match P with Inf => identity_str | Aff x y => pair_str x y end.
(** the same on TwistedEdwardsCurveFp and MontgomeryCurveFp, whose identity() makes and checks the point (0, -1) *)
Definition te_str (p a d : Z) (P : Z * Z) : res str :=
  do i <- te_identity p a d; Ok (if pair_eqb P i then identity_str else pair_str (fst P) (snd P)).
Definition mg_str (p a : Z) (P : Z * Z) : res str :=
  do i <- mg_identity p a; Ok (if pair_eqb P i then identity_str else pair_str (fst P) (snd P)).
(** Element_of_GFp.__str__, fmath/galoisfield.py:84-85 *)
Definition el_str (x : element) : str := dec (el_v x).
(** Point.to_octetstring and from_octetstring, ecc/ellipticcurve.py:110-118: int_to_string is not defined there; a string is raised *)
Definition point_to_octetstring (P : point) : res str := Raise NameError.
Definition point_from_octetstring (P : point) (octetstring : str) : res point := Raise TypeError.
(** Michael.update, digest and final, hash/michael.py:49-54: a string is raised *)
Definition michael_update (self_key : option (Z * Z)) (data : str) : res str := Raise TypeError.
Definition michael_digest (self_key : option (Z * Z)) : res str := Raise TypeError.
Definition michael_final (self_key : option (Z * Z)) (data : str) : res str := Raise TypeError.
(** hash/prf_dot11.py:29-34 *)
Definition PRF_128 (hm : str -> str -> str) (key A B : str) : res str := PRF hm key A B 128.
Definition PRF_192 (hm : str -> str -> str) (key A B : str) : res str := PRF hm key A B 192.
Definition PRF_256 (hm : str -> str -> str) (key A B : str) : res str := PRF hm key A B 256.
Definition PRF_384 (hm : str -> str -> str) (key A B : str) : res str := PRF hm key A B 384.
Definition PRF_512 (hm : str -> str -> str) (key A B : str) : res str := PRF hm key A B 512.
Definition PRF_768 (hm : str -> str -> str) (key A B : str) : res str := PRF hm key A B 768.
(** class permutation, analysis/permutation.py:8-38: the functions have no [self].  Called on the class
    they get no instance; called on an object, the argument is the object, which has no length *)
Inductive call := OnClass (table : list Z) | OnObject.
Definition permutation_map_orbits (c : call) : res (list (Z * list Z)) := Raise TypeError.
Definition permutation_start_and_length (c : call) : res (list (Z * Z)) :=
  match c with OnClass _ => Raise TypeError | OnObject => Raise NameError end.
