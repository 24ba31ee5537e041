(** Python 2 values and control flow used by the transcription. *)
From Coq Require Import ZArith List Bool Lia.
Import ListNotations.
Local Open Scope Z_scope.

(** Exceptions that the modelled code can raise.  [OutOfFuel] is not a Python
    exception: it is the value of a fuelled loop that was stopped early.
    [NotModelled] marks the paths that leave the modelled part of the language. *)
Inductive exn : Type :=
| AssertionError | ValueError | TypeError | NameError | AttributeError
| ZeroDivisionError | OverflowError | IndexError | GenericException
| SquareRootError | NegativeExponentError | RuntimeError | NotModelled | OutOfFuel.

Inductive res (A : Type) : Type :=
| Ok (a : A)
| Raise (e : exn).
Arguments Ok {A} a.
Arguments Raise {A} e.

Definition bind {A B} (m : res A) (f : A -> res B) : res B :=
  match m with Ok a => f a | Raise e => Raise e end.

Notation "'do' x <- m ; f" := (bind m (fun x => f))
  (at level 200, x pattern, m at level 100, f at level 200, right associativity).

(** [assert b] followed by the rest of the function. *)
Definition py_assert (b : bool) : res unit :=
  if b then Ok tt else Raise AssertionError.

(** A Python 2 [str]: the list of its octets. *)
Notation str := (list Z) (only parsing).
Definition is_octet (b : Z) : Prop := 0 <= b < 256.
Definition octets (s : str) : Prop := Forall is_octet s.

Definition len {A} (l : list A) : Z := Z.of_nat (length l).

(** [s[i:j]] for [0 <= i], [0 <= j] and [s[i:]] for [0 <= i]. *)
Definition slice {A} (s : list A) (i j : Z) : list A :=
  firstn (Z.to_nat (j - i)) (skipn (Z.to_nat i) s).
Definition slice_from {A} (s : list A) (i : Z) : list A :=
  skipn (Z.to_nat i) s.

(** [n * chr(c)] (empty for [n <= 0]) *)
Definition str_repeat (c : Z) (n : Z) : str := repeat c (Z.to_nat n).

(** [chr(n)] *)
Definition py_chr (n : Z) : res str :=
  if (0 <=? n) && (n <? 256) then Ok [n] else Raise ValueError.

(** [divmod(a,b)], [a % b] and [a / b] on integers *)
Definition py_divmod (a b : Z) : res (Z * Z) :=
  if b =? 0 then Raise ZeroDivisionError else Ok (a / b, a mod b).
Definition py_mod (a b : Z) : res Z :=
  if b =? 0 then Raise ZeroDivisionError else Ok (a mod b).
Definition py_div (a b : Z) : res Z :=
  if b =? 0 then Raise ZeroDivisionError else Ok (a / b).

(** [==] on strings *)
Fixpoint str_eqb (a b : str) : bool :=
  match a, b with
  | [], [] => true
  | x :: a', y :: b' => (x =? y) && str_eqb a' b'
  | _, _ => false
  end.
