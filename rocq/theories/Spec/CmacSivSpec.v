(** RFC 4493 (CMAC) and RFC 5297 (SIV), over an arbitrary function [E] from
    16-octet blocks to 16-octet blocks, and the field GF(2^128). *)
From Coq Require Import ZArith List Bool.
From Verif Require Import Spec.EncodingSpec.
Import ListNotations.
Local Open Scope Z_scope.

(** ** polynomials over GF(2), as the bits of integers *)

(** product of the polynomials [a] and [b] *)
Fixpoint pmul_pos (a : positive) (b : Z) : Z :=
  match a with
  | xH => b
  | xO a' => 2 * pmul_pos a' b
  | xI a' => Z.lxor b (2 * pmul_pos a' b)
  end.
Definition pmul (a b : Z) : Z := match a with Zpos p => pmul_pos p b | _ => 0 end.

(** x^128 + x^7 + x^2 + x + 1 *)
Definition gf128 : Z := 2 ^ 128 + 2 ^ 7 + 2 ^ 2 + 2 ^ 1 + 2 ^ 0.

(** [r] is the remainder of the polynomial [a] modulo [m] of degree 128 *)
Definition pmod128 (a r : Z) : Prop :=
  0 <= r < 2 ^ 128 /\ exists q, 0 <= q /\ Z.lxor a r = pmul q gf128.

(** ** octet strings *)
Fixpoint xor_octets (a b : list Z) : list Z :=
  match a, b with x :: a', y :: b' => Z.lxor x y :: xor_octets a' b' | _, _ => [] end.

Fixpoint be_octets (n : nat) (x : Z) : list Z :=
  match n with O => [] | S n' => be_octets n' (x / 256) ++ [x mod 256] end.

(** multiplication by x in GF(2^128): shift, and reduce when the top bit falls out *)
Definition gf_double (s : list Z) : list Z :=
  let v := be_value 256 s in
  be_octets 16 (if v <? 2 ^ 127 then 2 * v else Z.lxor (2 * v - 2 ^ 128) 135).

(** ** CMAC, RFC 4493 2.3-2.4 *)
Definition zero16 : list Z := repeat 0 16.
Definition K1 (E : list Z -> list Z) : list Z := gf_double (E zero16).
Definition K2 (E : list Z -> list Z) : list Z := gf_double (K1 E).

Definition pad10 (s : list Z) : list Z := s ++ [128] ++ repeat 0 (15 - length s).

(** [cbc E x blocks last]: chain over a message, the last (possibly partial or
    empty) block being treated by RFC 4493's rule *)
Fixpoint rfc_cmac_from (fuel : nat) (E : list Z -> list Z) (x m : list Z) : list Z :=
  match fuel with
  | O => []
  | S f =>
      if (length m <? 16)%nat then E (xor_octets x (xor_octets (pad10 m) (K2 E)))
      else if (length m =? 16)%nat then E (xor_octets x (xor_octets m (K1 E)))
      else rfc_cmac_from f E (E (xor_octets x (firstn 16 m))) (skipn 16 m)
  end.
Definition rfc_cmac (E : list Z -> list Z) (m : list Z) : list Z :=
  rfc_cmac_from (S (length m)) E zero16 m.

(** ** S2V and SIV, RFC 5297 2.4-2.6 *)
Definition xorend (s d : list Z) : list Z :=
  firstn (length s - 16) s ++ xor_octets (skipn (length s - 16) s) d.

Fixpoint s2v_chain (E : list Z -> list Z) (d : list Z) (strings : list (list Z)) (sn : list Z) : list Z :=
  match strings with
  | s :: t => s2v_chain E (xor_octets (gf_double d) (rfc_cmac E s)) t sn
  | [] => rfc_cmac E (if (16 <=? length sn)%nat then xorend sn d
                      else xor_octets (gf_double d) (pad10 sn))
  end.
(** S2V of the strings followed by [sn] *)
Definition rfc_s2v (E : list Z -> list Z) (strings : list (list Z)) (sn : list Z) : list Z :=
  s2v_chain E (rfc_cmac E zero16) strings sn.

(** the initial counter: bits 31 and 63 (from the right) cleared *)
Definition siv_q (v : list Z) : Z :=
  let n := be_value 256 v in
  n - (n / 2 ^ 31 mod 2) * 2 ^ 31 - (n / 2 ^ 63 mod 2) * 2 ^ 63.

Definition siv_key_octet (E : list Z -> list Z) (q : Z) (i : nat) : Z :=
  nth (i mod 16) (E (be_octets 16 (q + Z.of_nat (i / 16)))) 0.

Definition siv_ctr (E : list Z -> list Z) (q : Z) (m : list Z) : list Z :=
  map (fun i => Z.lxor (nth i m 0) (siv_key_octet E q i)) (seq 0 (length m)).

Definition rfc_siv (E1 E2 : list Z -> list Z) (pt : list Z) (ads : list (list Z)) : list Z :=
  let v := rfc_s2v E1 ads pt in
  v ++ siv_ctr E2 (siv_q v) pt.
