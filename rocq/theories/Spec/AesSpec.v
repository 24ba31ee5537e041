(** FIPS 197 (AES), used to instantiate the external cipher class in the
    counterexamples for CMAC.  Octet strings are lists of integers below 256. *)
From Coq Require Import ZArith List Bool.
Import ListNotations.
Local Open Scope Z_scope.

(** multiplication by x modulo x^8+x^4+x^3+x+1, FIPS 197 4.2.1 *)
Definition xtime (a : Z) : Z := if a <? 128 then 2 * a else Z.lxor (2 * a) 283.

(** product in GF(2^8) *)
Fixpoint gmul (n : nat) (a b : Z) : Z :=
  match n with
  | O => 0
  | S n' => Z.lxor (if Z.odd b then a else 0) (gmul n' (xtime a) (b / 2))
  end.

(** FIPS 197 Figure 7 *)
Definition sbox_table : list Z := [
99; 124; 119; 123; 242; 107; 111; 197; 48; 1; 103; 43; 254; 215; 171; 118; 202; 130; 201;
125; 250; 89; 71; 240; 173; 212; 162; 175; 156; 164; 114; 192; 183; 253; 147; 38; 54; 63;
247; 204; 52; 165; 229; 241; 113; 216; 49; 21; 4; 199; 35; 195; 24; 150; 5; 154; 7; 18;
128; 226; 235; 39; 178; 117; 9; 131; 44; 26; 27; 110; 90; 160; 82; 59; 214; 179; 41; 227;
47; 132; 83; 209; 0; 237; 32; 252; 177; 91; 106; 203; 190; 57; 74; 76; 88; 207; 208; 239;
170; 251; 67; 77; 51; 133; 69; 249; 2; 127; 80; 60; 159; 168; 81; 163; 64; 143; 146; 157;
56; 245; 188; 182; 218; 33; 16; 255; 243; 210; 205; 12; 19; 236; 95; 151; 68; 23; 196;
167; 126; 61; 100; 93; 25; 115; 96; 129; 79; 220; 34; 42; 144; 136; 70; 238; 184; 20; 222;
94; 11; 219; 224; 50; 58; 10; 73; 6; 36; 92; 194; 211; 172; 98; 145; 149; 228; 121; 231;
200; 55; 109; 141; 213; 78; 169; 108; 86; 244; 234; 101; 122; 174; 8; 186; 120; 37; 46;
28; 166; 180; 198; 232; 221; 116; 31; 75; 189; 139; 138; 112; 62; 181; 102; 72; 3; 246;
14; 97; 53; 87; 185; 134; 193; 29; 158; 225; 248; 152; 17; 105; 217; 142; 148; 155; 30;
135; 233; 206; 85; 40; 223; 140; 161; 137; 13; 191; 230; 66; 104; 65; 153; 45; 15; 176;
84; 187; 22].
Definition sbox (x : Z) : Z := nth (Z.to_nat x) sbox_table 0.

(** the affine map of FIPS 197 5.1.1 *)
Definition affine (b : Z) : Z :=
  fold_right (fun i acc =>
    let bit k := Z.b2z (Z.testbit b (k mod 8)) in
    acc + ((bit i + bit (i + 4) + bit (i + 5) + bit (i + 6) + bit (i + 7) + Z.b2z (Z.testbit 99 i)) mod 2) * 2 ^ i)
    0 [0; 1; 2; 3; 4; 5; 6; 7].

Definition sxor (a b : list Z) : list Z := map (fun p => Z.lxor (fst p) (snd p)) (combine a b).

(** key expansion, FIPS 197 5.2; the words are kept most recent first *)
Fixpoint expand (n : nat) (i nk : Z) (rcon : Z) (w : list (list Z)) : list (list Z) :=
  match n with
  | O => w
  | S n' =>
      let t := nth 0 w [] in
      let t1 := if i mod nk =? 0 then
                  match map sbox t with
                  | [a; b; c; d] => [Z.lxor b rcon; c; d; a]
                  | _ => []
                  end
                else if (6 <? nk) && (i mod nk =? 4) then map sbox t else t in
      expand n' (i + 1) nk (if i mod nk =? 0 then xtime rcon else rcon)
        (sxor (nth (Z.to_nat nk - 1) w []) t1 :: w)
  end.
Fixpoint words (n : nat) (l : list Z) : list (list Z) :=
  match n with O => [] | S n' => firstn 4 l :: words n' (skipn 4 l) end.
Fixpoint quads4 (w : list (list Z)) : list (list Z) :=
  match w with a :: b :: c :: d :: t => (a ++ b ++ c ++ d) :: quads4 t | _ => [] end.
Definition round_keys (key : list Z) : list (list Z) :=
  let nk := (length key / 4)%nat in
  quads4 (rev (expand (3 * nk + 28) (Z.of_nat nk) (Z.of_nat nk) 1 (rev (words nk key)))).

(** SubBytes and ShiftRows: octet r + 4 c of the state is row r, column c *)
Definition sub_shift (s : list Z) : list Z :=
  map (fun i => sbox (nth ((i + 4 * (i mod 4)) mod 16) s 0)) (seq 0 16).
Definition mix_columns (s : list Z) : list Z :=
  map (fun i => let o k := nth (4 * (i / 4) + (i + k) mod 4) s 0 in
                Z.lxor (xtime (o 0%nat)) (Z.lxor (Z.lxor (xtime (o 1%nat)) (o 1%nat)) (Z.lxor (o 2%nat) (o 3%nat))))
      (seq 0 16).
Fixpoint aes_rounds (s : list Z) (ks : list (list Z)) : list Z :=
  match ks with
  | [] => s
  | [k] => sxor (sub_shift s) k
  | k :: t => aes_rounds (sxor (mix_columns (sub_shift s)) k) t
  end.
Definition aes_block (key b : list Z) : list Z :=
  match round_keys key with [] => b | k :: t => aes_rounds (sxor b k) t end.

(** the table of Figure 7 is the affine map of the inverse *)
Definition gm (a b : Z) : Z := gmul 8 a b.
(** a^254, the inverse of a non-zero element *)
Definition ginv (a : Z) : Z :=
  let a2 := gm a a in let a3 := gm a2 a in let a6 := gm a3 a3 in let a12 := gm a6 a6 in
  let a15 := gm a12 a3 in let a30 := gm a15 a15 in let a60 := gm a30 a30 in let a120 := gm a60 a60 in
  let a126 := gm a120 a6 in let a127 := gm a126 a in gm a127 a127.
Example sbox_is_affine_inverse :
  forallb (fun x => ((x =? 0) || (gm x (ginv x) =? 1)) && (sbox x =? affine (ginv x)))
    (map Z.of_nat (seq 0 256)) = true.
Proof. vm_compute. reflexivity. Qed.

(** FIPS 197 Appendix C.1 - C.3 *)
Definition c_key (n : nat) : list Z := map Z.of_nat (seq 0 n).
Definition c_pt : list Z := map (fun i => 17 * Z.of_nat i) (seq 0 16).
Example fips197_c1 : aes_block (c_key 16) c_pt =
  [0x69;0xc4;0xe0;0xd8;0x6a;0x7b;0x04;0x30;0xd8;0xcd;0xb7;0x80;0x70;0xb4;0xc5;0x5a].
Proof. vm_compute. reflexivity. Qed.
Example fips197_c2 : aes_block (c_key 24) c_pt =
  [0xdd;0xa9;0x7c;0xa4;0x86;0x4c;0xdf;0xe0;0x6e;0xaf;0x70;0xa0;0xec;0x0d;0x71;0x91].
Proof. vm_compute. reflexivity. Qed.
Example fips197_c3 : aes_block (c_key 32) c_pt =
  [0x8e;0xa2;0xb7;0xca;0x51;0x67;0x45;0xbf;0xea;0xfc;0x49;0x90;0x4b;0x49;0x60;0x89].
Proof. vm_compute. reflexivity. Qed.
