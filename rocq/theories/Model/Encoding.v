(** Transcription of cipher/encoding.py, the helpers of cipher/common.py and the
    codec functions of ecc/ecc.py. *)
From Coq Require Import ZArith List Bool String Ascii.
From Verif Require Import Model.Py.
Import ListNotations.
Local Open Scope Z_scope.

(** The loop shared by int_to_string (cipher/encoding.py:20-22) and
    base_N_encode (cipher/encoding.py:48-50): prepend the digit of
    [n mod base], continue with [n / base].  [digit] is [chr] in the first and
    [alphabet[r]] in the second.
    Simplification: fuel; [Raise OutOfFuel] when it runs out. *)
Fixpoint digit_loop (fuel : nat) (base : Z) (digit : Z -> res Z) (n : Z) (acc : str)
  : res str :=
  if 0 <? n then
    match fuel with
    | O => Raise OutOfFuel
    | S fuel' =>
        do qr <- py_divmod n base;
        do c <- digit (snd qr);
        digit_loop fuel' base digit (fst qr) (c :: acc)
    end
  else Ok acc.

(** Enough iterations for any base >= 2. *)
Definition digit_fuel (n : Z) : nat := S (Z.to_nat (Z.log2 n)).

(** [chr(r)] as a single character *)
Definition chr_digit (r : Z) : res Z :=
  if (0 <=? r) && (r <? 256) then Ok r else Raise ValueError.

(** cipher/encoding.py:28-32 and cipher/common.py:40-44; [padto=None] and
    [padto=0] are both falsy. *)
Definition pad_to (padto : option Z) (s : str) : res str :=
  match padto with
  | None => Ok s
  | Some k =>
      if k =? 0 then Ok s else
      do _ <- py_assert (0 <=? k - len s);
      Ok (str_repeat 0 (k - len s) ++ s)
  end.

(** cipher/encoding.py:14-32, identical to cipher/common.py:26-44 *)
Definition int_to_string (n : Z) (padto : option Z) : res str :=
  do s <- (if 0 <? n then digit_loop (digit_fuel n) 256 chr_digit n []
           else if n =? 0 then Ok [0]
           else Raise ValueError);
  pad_to padto s.

(** cipher/encoding.py:34-39, identical to cipher/common.py:46-51 and
    ecc/ecc.py:324-329 *)
Definition string_to_int (s : str) : Z :=
  fold_left (fun n c => 256 * n + c) s 0.

(** ecc/ecc.py:307-322 *)
Definition ecc_int_to_string (n : Z) (padto : option Z) : res str :=
  do _ <- py_assert (0 <=? n);
  if n =? 0 then Ok [0] else
  do s <- digit_loop (digit_fuel n) 256 chr_digit n [];
  pad_to padto s.

(** [alphabet[r]] *)
Definition alpha_digit (alphabet : str) (r : Z) : res Z :=
  match nth_error alphabet (Z.to_nat r) with
  | Some c => Ok c
  | None => Raise IndexError
  end.

(** cipher/encoding.py:41-51.  A one-letter alphabet loops forever (OutOfFuel)
    and an empty one divides by zero, as in Python. *)
Definition base_N_encode (s alphabet : str) : res str :=
  let n := string_to_int s in
  digit_loop (digit_fuel n) (len alphabet) (alpha_digit alphabet) n [].

(** [alphabet.index(c)] *)
Fixpoint index_from (i : Z) (alphabet : str) (c : Z) : res Z :=
  match alphabet with
  | [] => Raise ValueError
  | x :: t => if x =? c then Ok i else index_from (i + 1) t c
  end.
Definition py_index (alphabet : str) (c : Z) : res Z := index_from 0 alphabet c.

(** cipher/encoding.py:59-60 *)
Fixpoint decode_loop (base : Z) (alphabet text : str) (n : Z) : res Z :=
  match text with
  | [] => Ok n
  | c :: t => do i <- py_index alphabet c; decode_loop base alphabet t (base * n + i)
  end.

(** cipher/encoding.py:53-62 *)
Definition base_N_decode (text alphabet : str) (padto : option Z) : res str :=
  do n <- decode_loop (len alphabet) alphabet text 0;
  int_to_string n padto.

(** Python string literals *)
Definition of_ascii (s : string) : str :=
  List.map (fun c => Z.of_N (N_of_ascii c)) (list_ascii_of_string s).

Arguments of_ascii s%string.

(** cipher/encoding.py:64 *)
Definition b27chars : str := of_ascii "ABCDEFGHJKMNPQRTWXYZ2346789".
(** cipher/encoding.py:73-76 *)
Definition b85chars : str :=
  of_ascii ("0123456789" ++
            "ABCDEFGHIJKLMNOPQRSTUVWXYZ" ++
            "abcdefghijklmnopqrstuvwxyz" ++
            "!#$%&()*+-;<=>?@^_`{|}~").
(** cipher/encoding.py:90: chr(33)..chr(126) *)
Definition ascii_printable : str :=
  List.map (fun i => Z.of_nat i) (List.seq 33 94).

(** cipher/encoding.py:65-97.  The decoders accept [padto] and do not use it. *)
Definition b27encode (s : str) : res str := base_N_encode s b27chars.
Definition b27decode (text : str) (padto : option Z) : res str :=
  base_N_decode text b27chars None.
Definition b85encode (s : str) : res str := base_N_encode s b85chars.
Definition b85decode (text : str) (padto : option Z) : res str :=
  base_N_decode text b85chars None.
Definition b94encode (s : str) : res str := base_N_encode s ascii_printable.
Definition b94decode (text : str) (padto : option Z) : res str :=
  base_N_decode text ascii_printable None.

(** The loop of cipher/common.py:14-17 and 21-24: octet-wise XOR of the common
    prefix.  [chr] cannot fail on the XOR of two octets. *)
Fixpoint xor_zip (a b : str) : str :=
  match a, b with
  | x :: a', y :: b' => Z.lxor x y :: xor_zip a' b'
  | _, _ => []
  end.

(** cipher/common.py:11-17 *)
Definition xor (a b : str) : res str :=
  do _ <- py_assert (len a =? len b);
  Ok (xor_zip a b).

(** cipher/common.py:19-24 *)
Definition xor_min (a b : str) : str := xor_zip a b.
