(** Transcription of cipher/chacha_poly.py. *)
From Coq Require Import ZArith List Bool.
From Verif Require Import Model.Py Model.Encoding.
Import ListNotations.
Local Open Scope Z_scope.

Definition mask32 : Z := 0xFFFFFFFF.

(** cipher/chacha_poly.py:32-55 *)
Definition chacha_q_round (a b c d : Z) : Z * Z * Z * Z :=
  let a := Z.land (a + b) mask32 in
  let d := Z.lxor d a in
  let d := Z.lor (Z.land (Z.shiftl d 16) mask32) (Z.shiftr d 16) in
  let c := Z.land (c + d) mask32 in
  let b := Z.lxor b c in
  let b := Z.lor (Z.land (Z.shiftl b 12) mask32) (Z.shiftr b 20) in
  let a := Z.land (a + b) mask32 in
  let d := Z.lxor d a in
  let d := Z.lor (Z.land (Z.shiftl d 8) mask32) (Z.shiftr d 24) in
  let c := Z.land (c + d) mask32 in
  let b := Z.lxor b c in
  let b := Z.lor (Z.land (Z.shiftl b 7) mask32) (Z.shiftr b 25) in
  (a, b, c, d).

(** [l[i]] and [l[i] = v] for an index known to be in range (0..15 on a list of
    16 elements in this file). *)
Definition get (l : list Z) (i : nat) : Z := nth i l 0.
Fixpoint set (l : list Z) (i : nat) (v : Z) : list Z :=
  match l, i with
  | [], _ => []
  | _ :: t, O => v :: t
  | x :: t, S i' => x :: set t i' v
  end.

(** cipher/chacha_poly.py:57-80 (the list is updated in place; the model
    returns the new list) *)
Definition quarter_round (state : list Z) (x y z w : nat) : list Z :=
  let '(a, b, c, d) :=
    chacha_q_round (get state x) (get state y) (get state z) (get state w) in
  set (set (set (set state x a) y b) z c) w d.

(** cipher/chacha_poly.py:122-134 *)
Definition inner_block (state : list Z) : list Z :=
  let state := quarter_round state 0 4 8 12 in
  let state := quarter_round state 1 5 9 13 in
  let state := quarter_round state 2 6 10 14 in
  let state := quarter_round state 3 7 11 15 in
  let state := quarter_round state 0 5 10 15 in
  let state := quarter_round state 1 6 11 12 in
  let state := quarter_round state 2 7 8 13 in
  let state := quarter_round state 3 4 9 14 in
  state.

(** struct.unpack('<I...', s) for a string whose length is a multiple of 4 *)
Fixpoint unpack_le32 (s : str) : list Z :=
  match s with
  | b0 :: b1 :: b2 :: b3 :: t => (b0 + 256 * b1 + 65536 * b2 + 16777216 * b3) :: unpack_le32 t
  | _ => []
  end.

(** struct.pack('<I', w) for 0 <= w < 2^32 (guaranteed by the mask at line 197) *)
Definition pack_le32 (w : Z) : str :=
  [w mod 256; (w / 256) mod 256; (w / 65536) mod 256; (w / 16777216) mod 256].

(** cipher/chacha_poly.py:159-185; the object is its [state] attribute *)
Definition initialize (key : str) (block_counter : Z) (nonce : str) : res (list Z) :=
  do _ <- py_assert (len key =? 32);
  do _ <- py_assert (len nonce =? 12);
  Ok ([0x61707865; 0x3320646e; 0x79622d32; 0x6b206574]
      ++ unpack_le32 key ++ [block_counter] ++ unpack_le32 nonce).

(** cipher/chacha_poly.py:229-234; [rnd] is what os.urandom(12) would return *)
Definition chacha_init (rnd key : str) (counter : Z) (nonce : option str) : res (list Z) :=
  let nonce := match nonce with
               | None => rnd
               | Some [] => rnd
               | Some n => n
               end in
  initialize key counter nonce.

Fixpoint iterate {A} (n : nat) (f : A -> A) (x : A) : A :=
  match n with O => x | S n' => iterate n' f (f x) end.

Fixpoint zip_with {A B C} (f : A -> B -> C) (a : list A) (b : list B) : list C :=
  match a, b with
  | x :: a', y :: b' => f x y :: zip_with f a' b'
  | _, _ => []
  end.

(** cipher/chacha_poly.py:187-199 *)
Definition chacha20_block (state : list Z) : str :=
  let working_state := iterate 10 inner_block state in
  let out_state := zip_with (fun s ws => Z.land (s + ws) mask32) state working_state in
  flat_map pack_le32 out_state.

(** body of the loop cipher/chacha_poly.py:212-220, [n] iterations from [j] on;
    returns the new state and the octets appended to encrypted_message *)
Fixpoint encrypt_loop (n : nat) (j : Z) (state : list Z) (plain_text : str)
  : list Z * str :=
  match n with
  | O => (state, [])
  | S n' =>
      let key_stream := chacha20_block state in
      let state := set state 12 (get state 12 + 1) in
      let block := slice_from plain_text (j * 64) in
      let encrypted_block := xor_zip block key_stream in
      let '(state, rest) := encrypt_loop n' (j + 1) state plain_text in
      (state, encrypted_block ++ rest)
  end.

(** cipher/chacha_poly.py:201-222: returns (new object state, ciphertext) *)
Definition chacha_encrypt (state : list Z) (plain_text : str) : list Z * str :=
  let blocks := len plain_text / 64 in
  let remainder := len plain_text mod 64 in
  let blocks := if 0 <? remainder then blocks + 1 else blocks in
  encrypt_loop (Z.to_nat blocks) 0 state plain_text.

(** cipher/chacha_poly.py:224-227 *)
Definition chacha_decrypt (state : list Z) (plain_text : str) : list Z * str :=
  chacha_encrypt state plain_text.

(** ** Poly1305 *)

(** cipher/chacha_poly.py:283-285 *)
Definition clamp (r : Z) : Z := Z.land r 0x0ffffffc0ffffffc0ffffffc0fffffff.

(** cipher/chacha_poly.py:308-310: int(hexlify(bytes[::-1]), 16); the empty
    string gives int('',16), a ValueError *)
Definition le_bytes_to_num (bytes : str) : res Z :=
  match bytes with
  | [] => Raise ValueError
  | _ => Ok (string_to_int (rev bytes))
  end.

(** cipher/chacha_poly.py:312-314 and 522-524 *)
Definition num_to_le_bytes (n : nat) (num : Z) : str :=
  map (fun i => Z.land 0xff (Z.shiftr num (8 * Z.of_nat i))) (seq 0 n).
Definition num_to_16_le_bytes (num : Z) : str := num_to_le_bytes 16 num.
Definition num_to_8_le_bytes (num : Z) : str := num_to_le_bytes 8 num.

Definition poly1305_p : Z := Z.shiftl 1 130 - 5.

(** cipher/chacha_poly.py:295-298, [n] iterations from [i] on *)
Fixpoint poly1305_loop (n : nat) (i r a : Z) (msg : str) : res Z :=
  match n with
  | O => Ok a
  | S n' =>
      do num <- le_bytes_to_num (slice msg (i * 16) ((i + 1) * 16) ++ [1]);
      let a := a + num in
      let a := (r * a) mod poly1305_p in
      poly1305_loop n' (i + 1) r a msg
  end.

(** cipher/chacha_poly.py:287-306 *)
Definition poly1305_mac (msg key : str) : res str :=
  do r <- le_bytes_to_num (slice key 0 16);
  let r := clamp r in
  do s <- le_bytes_to_num (slice key 16 32);
  let blocks := len msg / 16 in
  let remainder := len msg mod 16 in
  do a <- poly1305_loop (Z.to_nat blocks) 0 r 0 msg;
  do a <- (if negb (remainder =? 0) then
             do n <- le_bytes_to_num (slice_from msg (blocks * 16) ++ [1]);
             Ok ((r * (a + n)) mod poly1305_p)
           else Ok a);
  Ok (num_to_16_le_bytes (a + s)).

(** cipher/chacha_poly.py:367-371 *)
Definition poly1305_key_gen (rnd key nonce : str) : res str :=
  do state <- chacha_init rnd key 0 (Some nonce);
  Ok (slice (chacha20_block state) 0 32).

(** ** AEAD *)

(** cipher/chacha_poly.py:515-520 *)
Definition pad16 (x : str) : str :=
  let extra_bytes := len x mod 16 in
  if extra_bytes =? 0 then [] else str_repeat 0 (16 - extra_bytes).

(** cipher/chacha_poly.py:548-551 *)
Definition mac_data (aad cipher_text : str) : str :=
  (aad ++ pad16 aad) ++ (cipher_text ++ pad16 cipher_text)
  ++ num_to_8_le_bytes (len aad) ++ num_to_8_le_bytes (len cipher_text).

(** cipher/chacha_poly.py:543-553 for an object built with [key] and
    [constant]; [rnd1], [rnd2] are the results of the (at most) two calls of
    os.urandom(12) *)
Definition aead_encrypt (rnd1 rnd2 key constant aad iv plain_text : str)
  : res (str * str) :=
  let nonce := constant ++ iv in
  do otk <- poly1305_key_gen rnd1 key nonce;
  do state <- chacha_init rnd2 key 1 (Some nonce);
  let cipher_text := snd (chacha_encrypt state plain_text) in
  do tag <- poly1305_mac (mac_data aad cipher_text) otk;
  Ok (cipher_text, tag).

(** cipher/chacha_poly.py:555-557 *)
Definition aead_decrypt (rnd1 rnd2 key constant aad iv cipher_text : str)
  : res (str * str) :=
  aead_encrypt rnd1 rnd2 key constant aad iv cipher_text.

(** cipher/chacha_poly.py:561-563: [super()] without arguments is a TypeError in
    Python 2 *)
Definition chacha_poly_aead_encrypt (key constant aad iv plain_text : str) : res str :=
  Raise TypeError.

(** cipher/chacha_poly.py:565-569: the name [tag_length] (line 567) is not
    defined anywhere *)
Definition chacha_poly_aead_decrypt (key constant aad iv_cipher_text_tag : str) : res str :=
  Raise NameError.
