(** RFC 2104, RFC 2898 and the IEEE 802.11i PRF over an arbitrary hash function;
    FIPS 180-4 SHA-1 for the counterexamples. *)
From Coq Require Import ZArith List Bool.
Import ListNotations.
Local Open Scope Z_scope.

(** RFC 2104 section 2: the key is hashed if longer than B, then zero padded to B *)
Definition rfc_key (Hf : list Z -> list Z) (B : nat) (key : list Z) : list Z :=
  let k := if (B <? length key)%nat then Hf key else key in
  k ++ repeat 0 (B - length k).
Definition pad_with (x : Z) (k : list Z) : list Z := map (fun b => Z.lxor b x) k.
Definition rfc_hmac (Hf : list Z -> list Z) (B : nat) (key m : list Z) : list Z :=
  let k := rfc_key Hf B key in
  Hf (pad_with 0x5C k ++ Hf (pad_with 0x36 k ++ m)).

(** an ideal HMAC object: the current key and the data since the last reset *)
Inductive mac_op :=
| MUpdate (data : list Z) | MDigest | MReset | MSetKey (key : list Z) | MCall (data : list Z) (more : bool).
Definition mac_step (mac : list Z -> list Z -> list Z) (st : option (list Z) * list Z) (op : mac_op)
  : (option (list Z) * list Z) * option (list Z) :=
  match st, op with
  | (_, _), MSetKey k => ((Some k, []), Some [])
  | (None, _), _ => (st, None)
  | (Some k, w), MUpdate d => ((Some k, w ++ d), Some [])
  | (Some k, w), MDigest => (st, Some (mac k w))
  | (Some k, w), MReset => ((Some k, []), Some [])
  | (Some k, w), MCall d more => ((Some k, if more then w ++ d else []), Some (mac k (w ++ d)))
  end.
(** the results of a history; [None] stands for a refused call *)
Fixpoint mac_run mac st ops :=
  match ops with
  | [] => []
  | op :: t => let '(st', r) := mac_step mac st op in r :: mac_run mac st' t
  end.

(** ** RFC 2898 5.2; [prf] is keyed with the password *)
Definition int4 (i : Z) : list Z :=
  [(i / 2 ^ 24) mod 256; (i / 2 ^ 16) mod 256; (i / 2 ^ 8) mod 256; i mod 256].
(** U_1, ..., U_c *)
Fixpoint rfc_U (prf : list Z -> list Z) (u : list Z) (c : nat) : list (list Z) :=
  match c with O => [] | S c' => u :: rfc_U prf (prf u) c' end.
Fixpoint xor_list (a b : list Z) : list Z :=
  match a, b with x :: a', y :: b' => Z.lxor x y :: xor_list a' b' | _, _ => [] end.
Definition rfc_F (prf : list Z -> list Z) (salt : list Z) (c : nat) (i : Z) : list Z :=
  match rfc_U prf (prf (salt ++ int4 i)) c with
  | [] => []
  | u :: us => fold_left xor_list us u
  end.
(** T_1 || ... || T_l *)
Definition rfc_T (prf : list Z -> list Z) (salt : list Z) (c l : nat) : list Z :=
  concat (map (fun i => rfc_F prf salt c (Z.of_nat i)) (seq 1 l)).
(** l = ceil(dkLen / hLen) *)
Definition rfc_pbkdf2 (prf : list Z -> list Z) (hLen : nat) (salt : list Z) (c dkLen : nat) : list Z :=
  firstn dkLen (rfc_T prf salt c ((dkLen + hLen - 1) / hLen)).

(** ** IEEE 802.11i 8.5.1.1: R = HMAC(K, A|0|B|0) || HMAC(K, A|0|B|1) || ... *)
Definition ieee_prf (hm : list Z -> list Z -> list Z) (key A B : list Z) (blocks octets : nat) : list Z :=
  firstn octets (concat (map (fun i => hm key (A ++ [0] ++ B ++ [Z.of_nat i])) (seq 0 blocks))).

(** ** SHA-1, FIPS 180-4 *)
Definition w32 (x : Z) : Z := x mod 2 ^ 32.
Definition rotl32 (n x : Z) : Z := Z.lor (w32 (x * 2 ^ n)) (x / 2 ^ (32 - n)).
Fixpoint be_words (s : list Z) : list Z :=
  match s with
  | a :: b :: c :: d :: t => (a * 2 ^ 24 + b * 2 ^ 16 + c * 2 ^ 8 + d) :: be_words t
  | _ => []
  end.
Definition sha_pad (m : list Z) : list Z :=
  let l := Z.of_nat (length m) in
  m ++ [128] ++ repeat 0 (Z.to_nat ((55 - l) mod 64))
    ++ [0; 0; 0; 0; (8 * l / 2 ^ 24) mod 256; (8 * l / 2 ^ 16) mod 256; (8 * l / 2 ^ 8) mod 256; (8 * l) mod 256].
(** the schedule as a sliding window of 16 words *)
Fixpoint sha_rounds (n : nat) (t : Z) (w : list Z) (s : Z * Z * Z * Z * Z) : Z * Z * Z * Z * Z :=
  match n with
  | O => s
  | S n' =>
      let '(a, b, c, d, e) := s in
      let '(f, k) :=
        if t <? 20 then (Z.lxor (Z.land b c) (Z.land (Z.lxor b 0xFFFFFFFF) d), 0x5a827999)
        else if t <? 40 then (Z.lxor b (Z.lxor c d), 0x6ed9eba1)
        else if t <? 60 then (Z.lxor (Z.land b c) (Z.lxor (Z.land b d) (Z.land c d)), 0x8f1bbcdc)
        else (Z.lxor b (Z.lxor c d), 0xca62c1d6) in
      let wt := nth 0 w 0 in
      let next := rotl32 1 (Z.lxor (nth 13 w 0) (Z.lxor (nth 8 w 0) (Z.lxor (nth 2 w 0) wt))) in
      let T := w32 (rotl32 5 a + f + e + k + wt) in
      sha_rounds n' (t + 1) (tl w ++ [next]) (T, a, rotl32 30 b, c, d)
  end.
Fixpoint sha_blocks (n : nat) (w : list Z) (s : Z * Z * Z * Z * Z) : Z * Z * Z * Z * Z :=
  match n with
  | O => s
  | S n' =>
      let '(a, b, c, d, e) := s in
      let '(a', b', c', d', e') := sha_rounds 80 0 (firstn 16 w) s in
      sha_blocks n' (skipn 16 w) (w32 (a + a'), w32 (b + b'), w32 (c + c'), w32 (d + d'), w32 (e + e'))
  end.
Definition be4 (x : Z) : list Z := int4 x.
Definition sha1 (m : list Z) : list Z :=
  let w := be_words (sha_pad m) in
  let '(a, b, c, d, e) :=
    sha_blocks (length w / 16) w (0x67452301, 0xefcdab89, 0x98badcfe, 0x10325476, 0xc3d2e1f0) in
  be4 a ++ be4 b ++ be4 c ++ be4 d ++ be4 e.

Example sha1_abc : sha1 [97; 98; 99] =
  [0xa9;0x99;0x3e;0x36;0x47;0x06;0x81;0x6a;0xba;0x3e;0x25;0x71;0x78;0x50;0xc2;0x6c;0x9c;0xd0;0xd8;0x9d].
Proof. vm_compute. reflexivity. Qed.
(** RFC 2202, HMAC-SHA1 test cases 2 and 6 *)
Example rfc2202_2 : rfc_hmac sha1 64 [0x4a;0x65;0x66;0x65]
  [0x77;0x68;0x61;0x74;0x20;0x64;0x6f;0x20;0x79;0x61;0x20;0x77;0x61;0x6e;0x74;0x20;0x66;0x6f;0x72;0x20;
   0x6e;0x6f;0x74;0x68;0x69;0x6e;0x67;0x3f] =
  [0xef;0xfc;0xdf;0x6a;0xe5;0xeb;0x2f;0xa2;0xd2;0x74;0x16;0xd5;0xf1;0x84;0xdf;0x9c;0x25;0x9a;0x7c;0x79].
Proof. vm_compute. reflexivity. Qed.
