(** Transcription of hash/hmac.py, hash/pbkdf2.py and hash/prf_dot11.py. *)
From Coq Require Import ZArith List Bool.
From Verif Require Import Model.Py Model.Encoding.
Import ListNotations.
Local Open Scope Z_scope.

(** The external hash classes (crypto.hash.sha1Hash.SHA1, ...): a class with
    states [T].  [h_digest] does not change the object. *)
Record hash (T : Type) := Hash {
  h_new : T;
  h_reset : T -> T;
  h_update : T -> str -> T;
  h_digest : T -> str;
  raw_block_size : Z;
  digest_size : Z
}.
Arguments h_new {T}. Arguments h_reset {T}. Arguments h_update {T}. Arguments h_digest {T}.
Arguments raw_block_size {T}. Arguments digest_size {T}.

(** The external base class crypto.hash.hash.Hash: [__call__(data)] is update,
    digest and, when [more] is None, reset. *)
Definition h_call {T} (C : hash T) (h : T) (data : str) : T * str :=
  let h := h_update C h data in
  let d := h_digest C h in
  (h_reset C h, d).

(** An HMAC object, hash/hmac.py:28-43.  The pads exist only once [keyed]. *)
Record hmac (T : Type) := Hmac {
  H : T;
  H_outer : T;
  k_xor_ipad : str;
  k_xor_opad : str;
  keyed : bool
}.
Arguments H {T}. Arguments H_outer {T}. Arguments k_xor_ipad {T}. Arguments k_xor_opad {T}.
Arguments keyed {T}. Arguments Hmac {T}.

(** hash/hmac.py:56-60.  [raise 'no key defined'] raises a string: TypeError. *)
Definition hmac_reset {T} (C : hash T) (o : hmac T) : hmac T * res str :=
  let o := Hmac (h_reset C (H o)) (H_outer o) (k_xor_ipad o) (k_xor_opad o) (keyed o) in
  if negb (keyed o) then (o, Raise TypeError)
  else (Hmac (h_update C (H o) (k_xor_ipad o)) (H_outer o) (k_xor_ipad o) (k_xor_opad o) (keyed o), Ok []).

(** hash/hmac.py:45-54 *)
Definition hmac_setKey {T} (C : hash T) (o : hmac T) (key : str) : hmac T * res str :=
  let B := raw_block_size C in
  let '(h, key) :=
    if B <? len key then h_call C (H o) key
    else (H o, key ++ str_repeat 0 (B - len key)) in
  let ipad := map (fun b => Z.lxor b 0x36) key in
  let opad := map (fun b => Z.lxor b 0x5C) key in
  hmac_reset C (Hmac h (H_outer o) ipad opad true).

(** hash/hmac.py:28-43 *)
Definition hmac_new {T} (C : hash T) (key : option str) : hmac T :=
  let o := Hmac (h_new C) (h_new C) [] [] false in
  match key with Some k => fst (hmac_setKey C o k) | None => o end.

(** hash/hmac.py:62-65 *)
Definition hmac_update {T} (C : hash T) (o : hmac T) (data : str) : hmac T * res str :=
  if negb (keyed o) then (o, Raise TypeError)
  else (Hmac (h_update C (H o) data) (H_outer o) (k_xor_ipad o) (k_xor_opad o) (keyed o), Ok []).

(** hash/hmac.py:66-69 *)
Definition hmac_digest {T} (C : hash T) (o : hmac T) : hmac T * res str :=
  if negb (keyed o) then (o, Raise TypeError)
  else let '(ho, d) := h_call C (H_outer o) (k_xor_opad o ++ h_digest C (H o)) in
       (Hmac (H o) ho (k_xor_ipad o) (k_xor_opad o) (keyed o), Ok d).

(** the inherited [__call__(data, more)] *)
Definition hmac_call {T} (C : hash T) (o : hmac T) (data : str) (more : bool) : hmac T * res str :=
  match hmac_update C o data with
  | (o, Raise e) => (o, Raise e)
  | (o, Ok _) =>
      match hmac_digest C o with
      | (o, Raise e) => (o, Raise e)
      | (o, Ok d) =>
          if more then (o, Ok d)
          else match hmac_reset C o with (o, Raise e) => (o, Raise e) | (o, Ok _) => (o, Ok d) end
      end
  end.

(** a history of method calls, with their results *)
Inductive hmac_op :=
| OUpdate (data : str) | ODigest | OReset | OSetKey (key : str) | OCall (data : str) (more : bool).

Definition hmac_step {T} (C : hash T) (o : hmac T) (op : hmac_op) : hmac T * res str :=
  match op with
  | OUpdate d => hmac_update C o d
  | ODigest => hmac_digest C o
  | OReset => hmac_reset C o
  | OSetKey k => hmac_setKey C o k
  | OCall d more => hmac_call C o d more
  end.
Fixpoint hmac_run {T} (C : hash T) (o : hmac T) (ops : list hmac_op) : list (res str) :=
  match ops with
  | [] => []
  | op :: t => let '(o', r) := hmac_step C o op in r :: hmac_run C o' t
  end.

(** ** hash/pbkdf2.py *)

(** struct.pack('>i', n): error (modelled as ValueError) outside the signed range *)
Definition pack_be_i (n : Z) : res str :=
  if (- 2 ^ 31 <=? n) && (n <? 2 ^ 31)
  then Ok [(n / 16777216) mod 256; (n / 65536) mod 256; (n / 256) mod 256; n mod 256]
  else Raise ValueError.

(** inner loop hash/pbkdf2.py:31-33; [n] is the number of rounds *)
Fixpoint pbkdf2_inner {T} (C : hash T) (n : nat) (prf : hmac T) (U F : str) : res (hmac T * str) :=
  match n with
  | O => Ok (prf, F)
  | S n' =>
      match hmac_call C prf U false with
      | (_, Raise e) => Raise e
      | (prf, Ok U) => do F <- xor F U; pbkdf2_inner C n' prf U F
      end
  end.

(** outer loop hash/pbkdf2.py:27-34 *)
Fixpoint pbkdf2_outer {T} (C : hash T) (n : nat) (block : Z) (prf : hmac T) (salt : str) (iterations : Z)
    (key : str) : res str :=
  match n with
  | O => Ok key
  | S n' =>
      do p <- pack_be_i block;
      match hmac_call C prf (salt ++ p) false with
      | (_, Raise e) => Raise e
      | (prf, Ok F) =>
          match hmac_call C prf (salt ++ p) false with
          | (_, Raise e) => Raise e
          | (prf, Ok U) =>
              do pf <- pbkdf2_inner C (Z.to_nat (iterations - 1)) prf U F;
              let '(prf, F) := pf in
              pbkdf2_outer C n' (block + 1) prf salt iterations (key ++ F)
          end
      end
  end.

(** hash/pbkdf2.py:16-35 with PRF an HMAC over the hash class [C] (the default is
    SHA1).  [ceil] returns a float; Python 2.7's [range] rejects it with a
    TypeError, while Python before 2.7 truncates it: [py27] selects the
    interpreter.  For |keySize| <= 10000 the float quotient's ceiling is the exact
    one, and for smaller keySize the loop is empty either way. *)
Definition pbkdf2 {T} (py27 : bool) (C : hash T) (password salt : str) (iterations keySize : Z) : res str :=
  if 63 <? len password then Raise TypeError
  else if 10000 <? keySize then Raise TypeError
  else
    let prf := hmac_new C (Some password) in
    if digest_size C =? 0 then Raise ZeroDivisionError else
    let numBlocks := (keySize + digest_size C - 1) / digest_size C in
    if py27 then Raise TypeError else
    do key <- pbkdf2_outer C (Z.to_nat numBlocks) 1 prf salt iterations [];
    Ok (if keySize <? 0 then slice key 0 (len key + keySize) else slice key 0 keySize).

(** hash/pbkdf2.py:37-42 *)
Definition dot11PassPhraseToPSK {T} (py27 : bool) (C : hash T) (passPhrase ssid : str) : res str :=
  do _ <- py_assert ((7 <? len passPhrase) && (len passPhrase <? 64));
  pbkdf2 py27 C passPhrase ssid 4096 32.

(** ** hash/prf_dot11.py.  [hm key data] is the external
    hmac.new(key, data, sha).digest() of the Python library. *)

(** loop hash/prf_dot11.py:23-26 *)
Fixpoint prf_loop (fuel : nat) (hm : str -> str -> str) (key prefix data : str) (n i : Z) (R : str) : res str :=
  if len R <=? n then
    match fuel with
    | O => Raise OutOfFuel
    | S f =>
        do c <- py_chr i;
        prf_loop f hm key prefix data n (i + 1) (R ++ hm key (prefix ++ [0] ++ data ++ c))
    end
  else Ok R.

(** hash/prf_dot11.py:12-27.  [chr(i)] fails at i = 256, so 257 rounds suffice.
    R[:n] for negative n is taken of the empty string. *)
Definition PRF (hm : str -> str -> str) (key prefix data : str) (number_of_bits : Z) : res str :=
  let number_of_octets := number_of_bits / 8 in
  if negb (number_of_bits mod 8 =? 0) then Raise ValueError
  else
    do R <- prf_loop 257 hm key prefix data number_of_octets 0 [];
    Ok (slice R 0 number_of_octets).
