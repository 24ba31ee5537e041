(** Transcription of cipher/aes_cmac.py and cipher/aes_siv.py.

    PyCrypto's cipher modules are external: a [cipher] is a record with the
    predicate telling which keys [CIPH.new] accepts (ValueError otherwise), the
    block size and the ECB encryption of one block. *)
From Coq Require Import ZArith List Bool.
From Verif Require Import Model.Py Model.Encoding.
Import ListNotations.
Local Open Scope Z_scope.

Record cipher := Cipher {
  valid_key : str -> bool;
  block_size : Z;
  encrypt_block : str -> str -> str
}.

(** CIPH.new(key) *)
Definition cipher_new (C : cipher) (key : str) : res (str -> str) :=
  if valid_key C key then Ok (encrypt_block C key) else Raise ValueError.

Definition msb128 : Z := 0x80000000000000000000000000000000.
Definition mask128 : Z := 0xFFFFFFFFFFFFFFFFFFFFFFFFFFFFFFFF.

(** cipher/aes_cmac.py:39-59 *)
Definition subkey (key : str) (CIPH : cipher) : res (str * str) :=
  do ciph <- cipher_new CIPH key;
  do _ <- py_assert (block_size CIPH =? 16);
  let el := string_to_int (ciph (str_repeat 0 (block_size CIPH))) in
  let k1 := if Z.land el msb128 =? 0 then Z.shiftl el 1
            else Z.lxor (Z.land (Z.shiftl el 1) mask128) 0x87 in
  let k2 := if Z.land k1 msb128 =? 0 then Z.shiftl k1 1
            else Z.lxor (Z.land (Z.shiftl k1 1) mask128) 0x87 in
  do k1 <- int_to_string k1 None;
  do k2 <- int_to_string k2 None;
  Ok (k1, k2).

(** cipher/aes_cmac.py:61-64, the same as cipher/aes_siv.py:37-40 *)
Definition pad (octet_string : str) (block_size : Z) : str :=
  let pad_length := block_size - len octet_string in
  octet_string ++ [0x80] ++ str_repeat 0 (pad_length - 1).

(** loop cipher/aes_cmac.py:34-35, [n] iterations from [i] on.  [xor] is
    cipher/aes_cmac.py:67-73, the same as in cipher/common.py. *)
Fixpoint cmac_loop (n : nat) (i : Z) (ciph : str -> str) (x M_p : str) : res str :=
  match n with
  | O => Ok x
  | S n' =>
      do y <- xor x (slice (slice_from M_p (i * 16)) 0 16);
      cmac_loop n' (i + 1) ciph (ciph y) M_p
  end.

(** cipher/aes_cmac.py:19-37; [AES] is the module imported at line 16, which
    [subkey] uses whatever [CIPH] is *)
Definition aes_cmac (AES : cipher) (key M : str) (CIPH : cipher) : res str :=
  do ciph <- cipher_new CIPH key;
  do _ <- py_assert (block_size CIPH =? 16);
  do ks <- subkey key AES;
  let '(k1, k2) := ks in
  let blocks := len M / block_size CIPH in
  let leftover := len M mod block_size CIPH in
  do M_p <- (if (leftover =? 0) && (0 <? blocks) then
               do l <- xor (slice_from M ((blocks - 1) * block_size CIPH)) k1;
               Ok (slice M 0 ((blocks - 1) * block_size CIPH) ++ l)
             else
               do l <- xor (pad (slice_from M (blocks * block_size CIPH)) 16) k2;
               Ok (slice M 0 (blocks * block_size CIPH) ++ l));
  let x := str_repeat 0 (block_size CIPH) in
  cmac_loop (Z.to_nat (len M_p / block_size CIPH)) 0 ciph x M_p.

(** cipher/aes_siv.py:27-35 *)
Definition dbl (s : str) : res str :=
  do _ <- py_assert (len s =? 16);
  let d := string_to_int s in
  let d := if negb (Z.land d msb128 =? 0)
           then Z.lxor (Z.land (Z.shiftl d 1) mask128) 0x87
           else Z.shiftl d 1 in
  int_to_string d (Some 16).

(** loop cipher/aes_siv.py:49-50 over ad_list[0 .. len-2] *)
Fixpoint s2v_loop (AES : cipher) (key d : str) (ads : list str) : res str :=
  match ads with
  | [] => Ok d
  | a :: t =>
      do d2 <- dbl d;
      do c <- aes_cmac AES key a AES;
      do d <- xor d2 c;
      s2v_loop AES key d t
  end.

(** cipher/aes_siv.py:42-56 (block_size = 16) *)
Definition s2v (AES : cipher) (key : str) (ad_list : list str) : res str :=
  match ad_list with
  | [] => aes_cmac AES key (str_repeat 0 15 ++ [1]) AES
  | _ =>
      do d <- aes_cmac AES key (str_repeat 0 16) AES;
      do d <- s2v_loop AES key d (removelast ad_list);
      let l := last ad_list [] in
      do t <- (if 16 <=? len l then
                 do e <- xor (slice_from l (len l - 16)) d;
                 Ok (slice l 0 (len l - 16) ++ e)
               else
                 do d2 <- dbl d;
                 xor d2 (pad l 16));
      aes_cmac AES key t AES
  end.

Definition siv_mask : Z := 0xffffffffffffffff7fffffff7fffffff.

(** loops cipher/aes_siv.py:70-71 and 88-89 *)
Fixpoint ctr_loop (n : nat) (i q : Z) (aes : str -> str) (x : str) : res str :=
  match n with
  | O => Ok x
  | S n' =>
      do b <- int_to_string (q + i) (Some 16);
      ctr_loop n' (i + 1) q aes (x ++ aes b)
  end.

(** key[-k:] *)
Definition slice_last (s : str) (k : Z) : str :=
  if k =? 0 then s else slice_from s (len s - k).

(** cipher/aes_siv.py:58-74 *)
Definition siv_encrypt (AES : cipher) (key pt : str) (ad_list : list str) : res str :=
  let blksize := 16 in
  let keysize := len key / 2 in
  let key1 := slice key 0 keysize in
  let key2 := slice_last key keysize in
  let ad := ad_list ++ [pt] in
  do iv <- s2v AES key1 ad;
  let q := Z.land (string_to_int iv) siv_mask in
  let m := (len pt + blksize - 1) / blksize in
  do aes <- cipher_new AES key2;
  do x <- ctr_loop (Z.to_nat m) 0 q aes [];
  let x := slice x 0 (len pt) in
  do ct <- xor pt x;
  Ok (iv ++ ct).

(** cipher/aes_siv.py:76-97.  Line 97 raises a string, which Python 2.6+
    reports as a TypeError. *)
Definition siv_decrypt (AES : cipher) (key encrypted_string : str) (ad_list : list str) : res str :=
  let blksize := 16 in
  let iv := slice encrypted_string 0 16 in
  let ct := slice_from encrypted_string 16 in
  let keysize := len key / 2 in
  let key1 := slice key 0 keysize in
  let key2 := slice_last key keysize in
  let q := Z.land (string_to_int iv) siv_mask in
  let m := (len ct + blksize - 1) / blksize in
  do aes <- cipher_new AES key2;
  do x <- ctr_loop (Z.to_nat m) 0 q aes [];
  let x := slice x 0 (len ct) in
  do pt <- xor ct x;
  let ad := ad_list ++ [pt] in
  do t <- s2v AES key1 ad;
  if str_eqb t iv then Ok pt else Raise TypeError.

(** cipher/aes_siv.py:99-108: the object is its key *)
Definition AES_SIV_encrypt (AES : cipher) (self pt : str) (ad_list : list str) : res str :=
  siv_encrypt AES self pt ad_list.
Definition AES_SIV_decrypt (AES : cipher) (self ct : str) (ad_list : list str) : res str :=
  siv_decrypt AES self ct ad_list.
