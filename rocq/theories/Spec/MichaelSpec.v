(** IEEE 802.11i Michael and TKIP key mixing, transcribed from the standard. *)
From Coq Require Import ZArith List Bool.
From Verif Require Import Spec.AesSpec.
Import ListNotations.
Local Open Scope Z_scope.

Definition rol (n x : Z) : Z := (x * 2 ^ n) mod 2 ^ 32 + x / 2 ^ (32 - n).
Definition ror (n x : Z) : Z := (x mod 2 ^ n) * 2 ^ (32 - n) + x / 2 ^ n.
Definition octet (i : Z) (x : Z) : Z := x / 2 ^ (8 * i) mod 256.
(** swap the two octets of each 16-bit half *)
Definition XSWAP (x : Z) : Z :=
  octet 1 x + 2 ^ 8 * octet 0 x + 2 ^ 16 * octet 3 x + 2 ^ 24 * octet 2 x.
Definition add32 (x y : Z) : Z := (x + y) mod 2 ^ 32.

(** 802.11i 8.3.2.3.2, Figure 43f *)
Definition block (L R : Z) : Z * Z :=
  let R := Z.lxor R (rol 17 L) in let L := add32 L R in
  let R := Z.lxor R (XSWAP L) in let L := add32 L R in
  let R := Z.lxor R (rol 3 L) in let L := add32 L R in
  let R := Z.lxor R (ror 2 L) in let L := add32 L R in
  (L, R).

Fixpoint le_words (s : list Z) : list Z :=
  match s with
  | a :: b :: c :: d :: t => (a + 2 ^ 8 * b + 2 ^ 16 * c + 2 ^ 24 * d) :: le_words t
  | _ => []
  end.
Definition le4 (x : Z) : list Z := [octet 0 x; octet 1 x; octet 2 x; octet 3 x].

(** the message, 0x5a, then between 4 and 7 zero octets up to a multiple of 4 *)
Definition mic_pad (m : list Z) : list Z :=
  let l := Z.of_nat (length m) in
  m ++ [0x5a] ++ repeat 0 (Z.to_nat (4 + (- (l + 5)) mod 4)).

Definition ieee_michael (key m : list Z) : list Z :=
  match le_words key with
  | [K0; K1] =>
      let '(L, R) := fold_left (fun s w => block (Z.lxor (fst s) w) (snd s)) (le_words (mic_pad m)) (K0, K1) in
      le4 L ++ le4 R
  | _ => []
  end.

(** ** TKIP mixing, 802.11i 8.3.2.5 *)
Definition Lo8 (x : Z) : Z := x mod 256.
Definition Hi8 (x : Z) : Z := x / 256.
Definition Mk16 (x y : Z) : Z := 256 * x + y.
Definition RotR1 (x : Z) : Z := x / 2 + (x mod 2) * 2 ^ 15.
Definition add16 (x y : Z) : Z := (x + y) mod 2 ^ 16.
Definition swap16 (x : Z) : Z := Mk16 (Lo8 x) (Hi8 x).
(** the table of the standard: {2 S(i), 3 S(i)} with S the AES S-box *)
Definition tkip_table (i : Z) : Z := Mk16 (xtime (sbox i)) (Z.lxor (xtime (sbox i)) (sbox i)).
Definition sub16 (x : Z) : Z := Z.lxor (tkip_table (Lo8 x)) (swap16 (tkip_table (Hi8 x))).

Definition tk16 (TK : list Z) (i : nat) : Z := Mk16 (nth (i + 1) TK 0) (nth i TK 0).

Definition ieee_p1_round (TK : list Z) (i : nat) (p : Z * Z * Z * Z * Z) : Z * Z * Z * Z * Z :=
  let '(t0, t1, t2, t3, t4) := p in
  let j := (2 * (i mod 2))%nat in
  let t0 := add16 t0 (sub16 (Z.lxor t4 (tk16 TK j))) in
  let t1 := add16 t1 (sub16 (Z.lxor t0 (tk16 TK (4 + j)))) in
  let t2 := add16 t2 (sub16 (Z.lxor t1 (tk16 TK (8 + j)))) in
  let t3 := add16 t3 (sub16 (Z.lxor t2 (tk16 TK (12 + j)))) in
  let t4 := add16 (add16 t4 (sub16 (Z.lxor t3 (tk16 TK j)))) (Z.of_nat i) in
  (t0, t1, t2, t3, t4).
(** TSC is the 48-bit counter as octets TSC0 (least) ... TSC5 *)
Definition ieee_phase1 (TK TA TSC : list Z) : Z * Z * Z * Z * Z :=
  fold_left (fun p i => ieee_p1_round TK i p) (seq 0 8)
    (tk16 TSC 2, tk16 TSC 4, tk16 TA 0, tk16 TA 2, tk16 TA 4).

Definition ieee_phase2 (TK : list Z) (TTAK : Z * Z * Z * Z * Z) (TSC : list Z) : list Z :=
  let '(t0, t1, t2, t3, t4) := TTAK in
  let p0 := t0 in let p1 := t1 in let p2 := t2 in let p3 := t3 in let p4 := t4 in
  let p5 := add16 t4 (tk16 TSC 0) in
  let p0 := add16 p0 (sub16 (Z.lxor p5 (tk16 TK 0))) in
  let p1 := add16 p1 (sub16 (Z.lxor p0 (tk16 TK 2))) in
  let p2 := add16 p2 (sub16 (Z.lxor p1 (tk16 TK 4))) in
  let p3 := add16 p3 (sub16 (Z.lxor p2 (tk16 TK 6))) in
  let p4 := add16 p4 (sub16 (Z.lxor p3 (tk16 TK 8))) in
  let p5 := add16 p5 (sub16 (Z.lxor p4 (tk16 TK 10))) in
  let p0 := add16 p0 (RotR1 (Z.lxor p5 (tk16 TK 12))) in
  let p1 := add16 p1 (RotR1 (Z.lxor p0 (tk16 TK 14))) in
  let p2 := add16 p2 (RotR1 p1) in
  let p3 := add16 p3 (RotR1 p2) in
  let p4 := add16 p4 (RotR1 p3) in
  let p5 := add16 p5 (RotR1 p4) in
  [nth 1 TSC 0; Z.land (Z.lor (nth 1 TSC 0) 0x20) 0x7F; nth 0 TSC 0;
   Lo8 (Z.lxor p5 (tk16 TK 0) / 2)]
  ++ flat_map (fun p => [Lo8 p; Hi8 p]) [p0; p1; p2; p3; p4; p5].

Definition ieee_tkip (TK TA TSC : list Z) : list Z := ieee_phase2 TK (ieee_phase1 TK TA TSC) TSC.

(** test vector 5 of the draft *)
Example ieee_tkip_vector :
  ieee_phase1 [0x98;0x3A;0x16;0xEF;0x4F;0xAC;0xB3;0x51;0xAA;0x9E;0xCC;0x27;0x1D;0x73;0x09;0xE2]
    [0x50;0x9C;0x4B;0x17;0x27;0xD9] [0x8C;0x05;0xFC;0x10;0xA4;0xF0] = (0xF2DF, 0xEBB1, 0x88D3, 0x5923, 0xA07C) /\
  ieee_tkip [0x98;0x3A;0x16;0xEF;0x4F;0xAC;0xB3;0x51;0xAA;0x9E;0xCC;0x27;0x1D;0x73;0x09;0xE2]
    [0x50;0x9C;0x4B;0x17;0x27;0xD9] [0x8C;0x05;0xFC;0x10;0xA4;0xF0] =
    [0x05;0x25;0x8C;0xF4;0xD8;0x51;0x52;0xF4;0xD9;0xAF;0x1A;0x64;0xF1;0xD0;0x70;0x21].
Proof. vm_compute. split; reflexivity. Qed.
(** the published Michael test vectors for the empty message and "M" *)
Example ieee_michael_vector0 : ieee_michael (repeat 0 8) [] = [0x82;0x92;0x5c;0x1c;0xa1;0xd1;0x30;0xb8].
Proof. vm_compute. reflexivity. Qed.
Example ieee_michael_vector1 :
  ieee_michael [0x82;0x92;0x5c;0x1c;0xa1;0xd1;0x30;0xb8] [77] = [0x43;0x47;0x21;0xca;0x40;0x63;0x9b;0x3f].
Proof. vm_compute. reflexivity. Qed.
