#!/usr/bin/env python3
"""Write rocq/theories/Model/Pi.v: the text of fmath/pi.py lines 18-1019 and its functions."""
lines = open('/repo/fmath/pi.py').read().split('\n')
body = '\n'.join([''] + lines[18:1018] + [lines[1018].replace('"""', '')])
assert set(body) <= set('0123456789. \n')
head = '''(** fmath/pi.py: digits of pi. *)
From Coq Require Import ZArith List Bool String Ascii.
From Verif Require Import Model.Py.
Import ListNotations.
Local Open Scope Z_scope.

Fixpoint octets_of (s : string) : str :=
  match s with EmptyString => [] | String c r => Z.of_N (N_of_ascii c) :: octets_of r end.

(** [s.splitlines()]; the text has no line separators other than newline.
    [cur] holds the current line, reversed. *)
Fixpoint splitlines_aux (s cur : str) : list str :=
  match s with
  | [] => match cur with [] => [] | _ => [rev' cur] end
  | c :: r => if c =? 10 then rev' cur :: splitlines_aux r [] else splitlines_aux r (c :: cur)
  end.
Definition splitlines (s : str) : list str := splitlines_aux s [].
(** [s.strip()] *)
Definition is_space (c : Z) : bool := (c =? 32) || ((9 <=? c) && (c <=? 13)).
Fixpoint lstrip (s : str) : str :=
  match s with [] => [] | c :: r => if is_space c then lstrip r else s end.
Definition strip (s : str) : str := rev' (lstrip (rev' (lstrip s))).
(** [s[i:j]] with Python's treatment of negative and large indices *)
Definition py_index (n i : Z) : Z := let i := if i <? 0 then i + n else i in Z.max 0 (Z.min n i).
Definition py_slice (s : str) (i j : Z) : str :=
  let i := py_index (len s) i in let j := py_index (len s) j in slice s i j.
(** [int(s)] for a string of digits; the whitespace, sign and other forms that int()
    accepts do not occur in the text. *)
Fixpoint int_aux (s : str) (acc : Z) : res Z :=
  match s with
  | [] => Ok acc
  | c :: r => if (48 <=? c) && (c <=? 57) then int_aux r (10 * acc + (c - 48)) else Raise ValueError
  end.
Definition py_int (s : str) : res Z :=
  match s with [] => Raise ValueError | _ => int_aux s 0 end.
(** fractions.Fraction: numerator and denominator, in lowest terms; Fraction(n, d) and the sum of an integer and a Fraction *)
Definition fraction (n d : Z) : res (Z * Z) :=
  if d =? 0 then Raise ZeroDivisionError
  else let g := Z.sgn d * Z.gcd n d in Ok (n / g, d / g).
Definition int_plus_fraction (k : Z) (f : Z * Z) : res (Z * Z) :=
  let '(n, d) := f in fraction (k * d + n) d.

(** fmath/pi.py:18-1019, the text verbatim, in pieces of fifty lines *)
'''
tail = '''Definition pi_string_unstripped : string :=
  fold_right append ""%string [PIECES].

(** fmath/pi.py:1022  ''.join([l.strip() for l in pi_string_unstripped.splitlines()]) *)
Definition pi_string : str := List.concat (map strip (splitlines (octets_of pi_string_unstripped))).

(** fmath/pi.py:1024-1032.  [None] is the default argument.  For a negative exponent
    10**num_digits is a float, which Fraction refuses with TypeError; the argument
    int(...) is evaluated first. *)
Definition pi (num_digits : option Z) : res (Z * Z) :=
  let max_digits := len pi_string - 2 in
  do num_digits <- match num_digits with
                   | None => Ok max_digits
                   | Some d => if d =? 0 then Ok max_digits
                               else do _ <- py_assert (d <=? max_digits); Ok d
                   end;
  do n <- py_int (py_slice pi_string 2 (num_digits + 2));
  if num_digits <? 0 then Raise TypeError
  else do f <- fraction n (10 ^ num_digits); int_plus_fraction 3 f.
'''
L = body.split('\n')
assert len(L) == 1002
pieces = [L[i:i + 50] for i in range(0, len(L), 50)]
text = ''
for i, p in enumerate(pieces):
    text += 'Definition text_%d : string := "%s".\n' % (i, '\n'.join(p) + ('\n' if i < len(pieces) - 1 else ''))
tail = tail.replace('PIECES', '; '.join('text_%d' % i for i in range(len(pieces))))
open('/verif/rocq/theories/Model/Pi.v', 'w').write(head + text + tail)
