(** RFC 7539: ChaCha20, Poly1305, AEAD.  Written from the RFC, with addition
    modulo 2^32 and rotation as arithmetic, states as 16-tuples, the key stream
    addressed octet by octet, and Poly1305 as a sum of powers. *)
From Coq Require Import ZArith List.
From Verif Require Import Spec.EncodingSpec.
Import ListNotations.
Local Open Scope Z_scope.

Definition word (x : Z) : Prop := 0 <= x < 2 ^ 32.
Definition add32 (x y : Z) : Z := (x + y) mod 2 ^ 32.
Definition rotl32 (x n : Z) : Z := (x * 2 ^ n) mod 2 ^ 32 + x / 2 ^ (32 - n).

(** RFC 7539 2.1 *)
Definition QR (a b c d : Z) : Z * Z * Z * Z :=
  let a := add32 a b in let d := rotl32 (Z.lxor d a) 16 in
  let c := add32 c d in let b := rotl32 (Z.lxor b c) 12 in
  let a := add32 a b in let d := rotl32 (Z.lxor d a) 8 in
  let c := add32 c d in let b := rotl32 (Z.lxor b c) 7 in
  (a, b, c, d).

(** RFC 7539 2.3: a column round followed by a diagonal round on the matrix
      x0  x1  x2  x3
      x4  x5  x6  x7
      x8  x9  x10 x11
      x12 x13 x14 x15 *)
Definition double_round (st : list Z) : list Z :=
  match st with
  | [x0; x1; x2; x3; x4; x5; x6; x7; x8; x9; x10; x11; x12; x13; x14; x15] =>
      let '(x0, x4, x8, x12) := QR x0 x4 x8 x12 in
      let '(x1, x5, x9, x13) := QR x1 x5 x9 x13 in
      let '(x2, x6, x10, x14) := QR x2 x6 x10 x14 in
      let '(x3, x7, x11, x15) := QR x3 x7 x11 x15 in
      let '(x0, x5, x10, x15) := QR x0 x5 x10 x15 in
      let '(x1, x6, x11, x12) := QR x1 x6 x11 x12 in
      let '(x2, x7, x8, x13) := QR x2 x7 x8 x13 in
      let '(x3, x4, x9, x14) := QR x3 x4 x9 x14 in
      [x0; x1; x2; x3; x4; x5; x6; x7; x8; x9; x10; x11; x12; x13; x14; x15]
  | _ => []
  end.

(** n-th little-endian 32-bit word of an octet string *)
Definition le_word (s : list Z) (n : nat) : Z := le_value 256 (firstn 4 (skipn (4 * n) s)).

(** RFC 7539 2.3: initial matrix *)
Definition rfc_state (key : list Z) (counter : Z) (nonce : list Z) : list Z :=
  [1634760805; 857760878; 2036477234; 1797285236]
  ++ map (le_word key) (seq 0 8) ++ [counter] ++ map (le_word nonce) (seq 0 3).

Fixpoint le_octets (n : nat) (x : Z) : list Z :=
  match n with O => [] | S n' => x mod 256 :: le_octets n' (x / 256) end.

(** RFC 7539 2.3: the block function *)
Definition rfc_block (key : list Z) (counter : Z) (nonce : list Z) : list Z :=
  let st := rfc_state key counter nonce in
  let w := Nat.iter 10 double_round st in
  concat (map (fun p => le_octets 4 (add32 (fst p) (snd p))) (combine st w)).

(** RFC 7539 2.4: octet [i] of the key stream that starts at block [counter] *)
Definition rfc_key_octet (key : list Z) (counter : Z) (nonce : list Z) (i : nat) : Z :=
  nth (i mod 64) (rfc_block key (counter + Z.of_nat (i / 64)) nonce) 0.

Definition rfc_encrypt (key : list Z) (counter : Z) (nonce pt : list Z) : list Z :=
  map (fun i => Z.lxor (nth i pt 0) (rfc_key_octet key counter nonce i)) (seq 0 (length pt)).

(** number of 64-octet blocks of a message *)
Definition nblocks (pt : list Z) : Z := (Z.of_nat (length pt) + 63) / 64.

(** RFC 7539 2.5 *)
Definition p1305 : Z := 2 ^ 130 - 5.

(** the 16-octet blocks of a message (the last one may be shorter) *)
Definition block16 (msg : list Z) (i : nat) : list Z := firstn 16 (skipn (16 * i) msg).
Definition nblocks16 (msg : list Z) : nat := (length msg + 15) / 16.

(** block [i] with the final 1 bit, as a little-endian number *)
Definition poly_coeff (msg : list Z) (i : nat) : Z :=
  le_value 256 (block16 msg i) + 256 ^ Z.of_nat (length (block16 msg i)).

Fixpoint zsum (l : list Z) : Z := match l with [] => 0 | x :: t => x + zsum t end.

(** c_1 r^q + c_2 r^(q-1) + ... + c_q r^1 mod p *)
Definition poly1305_eval (msg : list Z) (r : Z) : Z :=
  let q := nblocks16 msg in
  zsum (map (fun i => poly_coeff msg i * r ^ Z.of_nat (q - i)) (seq 0 q)) mod p1305.

(** RFC 7539 2.5: clearing the top four bits of octets 3, 7, 11, 15 and the low
    two bits of octets 4, 8, 12 *)
Definition rfc_clamp (key : list Z) : Z :=
  le_value 256 (map (fun i =>
    let b := nth i key 0 in
    if existsb (Nat.eqb i) [3; 7; 11; 15]%nat then b mod 16
    else if existsb (Nat.eqb i) [4; 8; 12]%nat then b - b mod 4
    else b) (seq 0 16)).

Definition rfc_poly1305 (msg key : list Z) : list Z :=
  let r := rfc_clamp key in
  let s := le_value 256 (firstn 16 (skipn 16 key)) in
  le_octets 16 ((poly1305_eval msg r + s) mod 2 ^ 128).

(** RFC 7539 2.8 *)
Definition zeros_to_16 (s : list Z) : list Z :=
  repeat 0 ((16 - length s mod 16) mod 16).
Definition rfc_mac_data (aad ct : list Z) : list Z :=
  aad ++ zeros_to_16 aad ++ ct ++ zeros_to_16 ct
  ++ le_octets 8 (Z.of_nat (length aad)) ++ le_octets 8 (Z.of_nat (length ct)).
Definition rfc_aead (key nonce aad pt : list Z) : list Z * list Z :=
  let otk := firstn 32 (rfc_block key 0 nonce) in
  let ct := rfc_encrypt key 1 nonce pt in
  (ct, rfc_poly1305 (rfc_mac_data aad ct) otk).

(** A history of calls on one cipher object, and what RFC 7539 says each call
    returns when every call starts on the block after the last one used. *)
Inductive call := Encrypt (m : list Z) | Decrypt (m : list Z).
Definition payload (c : call) : list Z := match c with Encrypt m => m | Decrypt m => m end.
Definition total_blocks (calls : list call) : Z := zsum (map (fun x => nblocks (payload x)) calls).
Fixpoint rfc_history (key : list Z) (counter : Z) (nonce : list Z) (calls : list call)
  : list (list Z) :=
  match calls with
  | [] => []
  | x :: t => rfc_encrypt key counter nonce (payload x)
              :: rfc_history key (counter + nblocks (payload x)) nonce t
  end.
(** threading an object's state through a history *)
Fixpoint run_calls {S} (enc dec : S -> list Z -> S * list Z) (st : S) (calls : list call)
  : S * list (list Z) :=
  match calls with
  | [] => (st, [])
  | x :: t =>
      let '(st, out) := match x with Encrypt m => enc st m | Decrypt m => dec st m end in
      let '(st, outs) := run_calls enc dec st t in
      (st, out :: outs)
  end.
