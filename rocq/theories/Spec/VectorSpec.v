(** The known-answer vectors contained in the test files of the package, as data.
    They are published values (RFC 2104/2202, 3211, 4493, 5297, 7539, NIST SP 800-38B,
    IEEE 802.11i) and refer to nothing of the model. *)
From Coq Require Import ZArith List Ascii String.
Import ListNotations.
Local Open Scope string_scope.
Local Open Scope Z_scope.

(** octets written as hexadecimal text; white space is skipped *)
Definition nibble (c : ascii) : option Z :=
  let n := Z.of_nat (nat_of_ascii c) in
  if andb (48 <=? n) (n <=? 57) then Some (n - 48)
  else if andb (97 <=? n) (n <=? 102) then Some (n - 87)
  else if andb (65 <=? n) (n <=? 70) then Some (n - 55) else None.
Fixpoint nibbles (s : string) : list Z :=
  match s with
  | EmptyString => []
  | String c t => match nibble c with Some n => n :: nibbles t | None => nibbles t end
  end.
Fixpoint pairs (l : list Z) : list Z :=
  match l with x :: y :: t => 16 * x + y :: pairs t | _ => [] end.
Definition hex (s : string) : list Z := pairs (nibbles s).
Fixpoint ascii_octets (s : string) : list Z :=
  match s with EmptyString => [] | String c t => Z.of_nat (nat_of_ascii c) :: ascii_octets t end.

(** cipher/test/test_chacha_poly.py:40-64: quarter round, in and out *)
Definition quarter_vector : (Z * Z * Z * Z) * (Z * Z * Z * Z) :=
  ((0x11111111, 0x01020304, 0x9b8d6f43, 0x01234567), (0xea2a92f4, 0xcb1cf8ce, 0x4581472e, 0x5881c4bb)).
(** cipher/test/test_chacha_poly.py:66-112: key, nonce, counter; state; state after 20 rounds *)
Definition block_vector : list Z * list Z * Z * list Z * list Z :=
  (hex "000102030405060708090a0b0c0d0e0f101112131415161718191a1b1c1d1e1f",
   hex "000000090000004a00000000", 1,
   [0x61707865; 0x3320646e; 0x79622d32; 0x6b206574; 0x03020100; 0x07060504; 0x0b0a0908; 0x0f0e0d0c;
    0x13121110; 0x17161514; 0x1b1a1918; 0x1f1e1d1c; 0x00000001; 0x09000000; 0x4a000000; 0x00000000],
   [0x837778ab; 0xe238d763; 0xa67ae21e; 0x5950bb2f; 0xc4f2d0c7; 0xfc62bb2f; 0x8fa018fc; 0x3f5ec7b7;
    0x335271c2; 0xf29489f3; 0xeabda8fc; 0x82e46ebd; 0xd19c12b4; 0xb04e16de; 0x9e83d0cb; 0x4e3c50a2]).
(** cipher/test/test_chacha_poly.py:133-247 (RFC 7539 A.2): key, nonce, counter, plain text, cipher text *)
Definition chacha_vectors : list (list Z * list Z * Z * list Z * list Z) := [
  (hex "0000000000000000000000000000000000000000000000000000000000000000", hex "000000000000000000000000", 0,
   hex "0000000000000000000000000000000000000000000000000000000000000000
          0000000000000000000000000000000000000000000000000000000000000000",
   hex "76b8e0ada0f13d90405d6ae55386bd28bdd219b8a08ded1aa836efcc8b770dc7
          da41597c5157488d7724e03fb8d84a376a43b8f41518a11cc387b669b2ee6586");
  (hex "0000000000000000000000000000000000000000000000000000000000000001", hex "000000000000000000000002", 1,
   ascii_octets "Any submission to the IETF intended by the Contributor for publication as all or part of an IETF Internet-Draft or RFC and any statement made within the context of an IETF activity is considered an ""IETF Contribution"". Such statements include oral statements in IETF sessions, as well as written and electronic communications made at any time or place, which are addressed to",
   hex "a3fbf07df3fa2fde4f376ca23e82737041605d9f4f4f57bd8cff2c1d4b7955ec
          2a97948bd3722915c8f3d337f7d370050e9e96d647b7c39f56e031ca5eb6250d
          4042e02785ececfa4b4bb5e8ead0440e20b6e8db09d881a7c6132f420e527950
          42bdfa7773d8a9051447b3291ce1411c680465552aa6c405b7764d5e87bea85a
          d00f8449ed8f72d0d662ab052691ca66424bc86d2df80ea41f43abf937d3259d
          c4b2d0dfb48a6c9139ddd7f76966e928e635553ba76c5c879d7b35d49eb2e62b
          0871cdac638939e25e8a1e0ef9d5280fa8ca328b351c3c765989cbcf3daa8b6c
          cc3aaf9f3979c92b3720fc88dc95ed84a1be059c6499b9fda236e7e818b04b0b
          c39c1e876b193bfe5569753f88128cc08aaa9b63d1a16f80ef2554d7189c411f
          5869ca52c5b83fa36ff216b9c1d30062bebcfd2dc5bce0911934fda79a86f6e6
          98ced759c3ff9b6477338f3da4f9cd8514ea9982ccafb341b2384dd902f3d1ab
          7ac61dd29c6f21ba5b862f3730e37cfdc4fd806c22f221");
  (hex "1c9240a5eb55d38af333888604f6b5f0473917c1402b80099dca5cbc207075c0", hex "000000000000000000000002", 42,
   ascii_octets "'Twas brillig, and the slithy toves
Did gyre and gimble in the wabe:
All mimsy were the borogoves,
And the mome raths outgrabe.",
   hex "62e6347f95ed87a45ffae7426f27a1df5fb69110044c0d73118effa95b01e5cf
          166d3df2d721caf9b21e5fb14c616871fd84c54f9d65b283196c7fe4f60553eb
          f39c6402c42234e32a356b3e764312a61a5532055716ead6962568f87d3f3f77
          04c6a8d1bcd1bf4d50d6154b6da731b187b58dfd728afa36757a797ac188d1")].
(** cipher/test/test_chacha_poly.py:251-341 and 356-551 (RFC 7539 2.5.2 and A.3): key, message, tag *)
Definition poly_vectors : list (list Z * list Z * list Z) := [
  (hex "85d6be7857556d337f4452fe42d506a80103808afb0db2fd4abff6af4149f51b",
   hex "43727970746f6772617068696320466f72756d2052657365617263682047726f
          7570",
   hex "a8061dc1305136c6c22b8baf0c0127a9");
  (hex "0000000000000000000000000000000000000000000000000000000000000000",
   hex "0000000000000000000000000000000000000000000000000000000000000000
          0000000000000000000000000000000000000000000000000000000000000000",
   hex "00000000000000000000000000000000");
  (hex "0000000000000000000000000000000036e5f6b5c5e06070f0efca96227a863e",
   ascii_octets "Any submission to the IETF intended by the Contributor for publication as all or part of an IETF Internet-Draft or RFC and any statement made within the context of an IETF activity is considered an ""IETF Contribution"". Such statements include oral statements in IETF sessions, as well as written and electronic communications made at any time or place, which are addressed to",
   hex "36e5f6b5c5e06070f0efca96227a863e");
  (hex "36e5f6b5c5e06070f0efca96227a863e00000000000000000000000000000000",
   ascii_octets "Any submission to the IETF intended by the Contributor for publication as all or part of an IETF Internet-Draft or RFC and any statement made within the context of an IETF activity is considered an ""IETF Contribution"". Such statements include oral statements in IETF sessions, as well as written and electronic communications made at any time or place, which are addressed to",
   hex "f3477e7cd95417af89a6b8794c310cf0");
  (hex "1c9240a5eb55d38af333888604f6b5f0473917c1402b80099dca5cbc207075c0",
   ascii_octets "'Twas brillig, and the slithy toves
Did gyre and gimble in the wabe:
All mimsy were the borogoves,
And the mome raths outgrabe.",
   hex "4541669a7eaaee61e708dc7cbcc5eb62");
  (hex "0200000000000000000000000000000000000000000000000000000000000000",
   hex "FFFFFFFFFFFFFFFFFFFFFFFFFFFFFFFF",
   hex "03000000000000000000000000000000");
  (hex "02000000000000000000000000000000FFFFFFFFFFFFFFFFFFFFFFFFFFFFFFFF",
   hex "02000000000000000000000000000000",
   hex "03000000000000000000000000000000");
  (hex "0100000000000000000000000000000000000000000000000000000000000000",
   hex "FFFFFFFFFFFFFFFFFFFFFFFFFFFFFFFFF0FFFFFFFFFFFFFFFFFFFFFFFFFFFFFF
          11000000000000000000000000000000",
   hex "05000000000000000000000000000000");
  (hex "0100000000000000000000000000000000000000000000000000000000000000",
   hex "FFFFFFFFFFFFFFFFFFFFFFFFFFFFFFFFFBFEFEFEFEFEFEFEFEFEFEFEFEFEFEFE
          01010101010101010101010101010101",
   hex "00000000000000000000000000000000");
  (hex "0200000000000000000000000000000000000000000000000000000000000000",
   hex "FDFFFFFFFFFFFFFFFFFFFFFFFFFFFFFF",
   hex "FAFFFFFFFFFFFFFFFFFFFFFFFFFFFFFF");
  (hex "0100000000000000040000000000000000000000000000000000000000000000",
   hex "E33594D7505E43B900000000000000003394D7505E4379CD0100000000000000
          0000000000000000000000000000000001000000000000000000000000000000",
   hex "14000000000000005500000000000000");
  (hex "0100000000000000040000000000000000000000000000000000000000000000",
   hex "E33594D7505E43B900000000000000003394D7505E4379CD0100000000000000
          00000000000000000000000000000000",
   hex "13000000000000000000000000000000")].
(** cipher/test/test_chacha_poly.py:589-640 (RFC 7539 A.4): key, nonce, one-time key *)
Definition otk_vectors : list (list Z * list Z * list Z) := [
  (hex "0000000000000000000000000000000000000000000000000000000000000000", hex "000000000000000000000000",
   hex "76b8e0ada0f13d90405d6ae55386bd28bdd219b8a08ded1aa836efcc8b770dc7");
  (hex "0000000000000000000000000000000000000000000000000000000000000001", hex "000000000000000000000002",
   hex "ecfa254f845f647473d3cb140da9e87606cb33066c447b87bc2666dde3fbb739");
  (hex "1c9240a5eb55d38af333888604f6b5f0473917c1402b80099dca5cbc207075c0", hex "000000000000000000000002",
   hex "965e3bc6f9ec7ed9560808f4d229f94b137ff275ca9b3fcbdd59deaad23310ae")].
(** cipher/test/test_chacha_poly.py:644-742 (RFC 7539 2.8.2):
    key, constant, iv, associated data, plain text; one-time key, cipher text, tag *)
Definition aead_vector : (list Z * list Z * list Z * list Z * list Z) * (list Z * list Z * list Z) :=
  ((hex "808182838485868788898a8b8c8d8e8f909192939495969798999a9b9c9d9e9f",
    hex "07000000", hex "4041424344454647", hex "50515253c0c1c2c3c4c5c6c7",
    ascii_octets "Ladies and Gentlemen of the class of '99: If I could offer you only one tip for the future, sunscreen would be it."),
   (hex "7bac2b252db447af09b67a55a4e955840ae1d6731075d9eb2a9375783ed553ff",
    hex "d31a8d34648e60db7b86afbc53ef7ec2a4aded51296e08fea9e2b5a736ee62d6
          3dbea45e8ca9671282fafb69da92728b1a71de0a9e060b2905d6a5b67ecd3b36
          92ddbd7f2d778b8c9803aee328091b58fab324e4fad675945585808b4831d7bc
          3ff4def08e4b7a9de576d26586cec64b6116",
    hex "1ae10b594f09e26a7e902ecbd0600691")).
(** cipher/test/test_aes_cmac.py:26-152 (NIST SP 800-38B D.1 to D.3): key, K1, K2; then key, message, tag *)
Definition subkey_vectors : list (list Z * list Z * list Z) := [
  (hex "2b7e151628aed2a6abf7158809cf4f3c",
   hex "fbeed618357133667c85e08f7236a8de", hex "f7ddac306ae266ccf90bc11ee46d513b");
  (hex "8e73b0f7da0e6452c810f32b809079e562f8ead2522c6b7b",
   hex "448a5b1c93514b273ee6439dd4daa296", hex "8914b63926a2964e7dcc873ba9b5452c");
  (hex "603deb1015ca71be2b73aef0857d77811f352c073b6108d72d9810a30914dff4",
   hex "cad1ed03299eedac2e9a99808621502f", hex "95a3da06533ddb585d3533010c42a0d9")].
Definition cmac_vectors : list (list Z * list Z * list Z) := [
  (hex "2b7e151628aed2a6abf7158809cf4f3c",
   hex "",
   hex "bb1d6929e95937287fa37d129b756746");
  (hex "2b7e151628aed2a6abf7158809cf4f3c",
   hex "6bc1bee22e409f96e93d7e117393172a",
   hex "070a16b46b4d4144f79bdd9dd04a287c");
  (hex "2b7e151628aed2a6abf7158809cf4f3c",
   hex "6bc1bee22e409f96e93d7e117393172aae2d8a571e03ac9c9eb76fac45af8e51
          30c81c46a35ce411",
   hex "dfa66747de9ae63030ca32611497c827");
  (hex "2b7e151628aed2a6abf7158809cf4f3c",
   hex "6bc1bee22e409f96e93d7e117393172aae2d8a571e03ac9c9eb76fac45af8e51
          30c81c46a35ce411e5fbc1191a0a52eff69f2445df4f9b17ad2b417be66c3710",
   hex "51f0bebf7e3b9d92fc49741779363cfe");
  (hex "8e73b0f7da0e6452c810f32b809079e562f8ead2522c6b7b",
   hex "",
   hex "d17ddf46adaacde531cac483de7a9367");
  (hex "8e73b0f7da0e6452c810f32b809079e562f8ead2522c6b7b",
   hex "6bc1bee22e409f96e93d7e117393172a",
   hex "9e99a7bf31e710900662f65e617c5184");
  (hex "8e73b0f7da0e6452c810f32b809079e562f8ead2522c6b7b",
   hex "6bc1bee22e409f96e93d7e117393172aae2d8a571e03ac9c9eb76fac45af8e51
          30c81c46a35ce411",
   hex "8a1de5be2eb31aad089a82e6ee908b0e");
  (hex "8e73b0f7da0e6452c810f32b809079e562f8ead2522c6b7b",
   hex "6bc1bee22e409f96e93d7e117393172aae2d8a571e03ac9c9eb76fac45af8e51
          30c81c46a35ce411e5fbc1191a0a52eff69f2445df4f9b17ad2b417be66c3710",
   hex "a1d5df0eed790f794d77589659f39a11");
  (hex "603deb1015ca71be2b73aef0857d77811f352c073b6108d72d9810a30914dff4",
   hex "",
   hex "028962f61b7bf89efc6b551f4667d983");
  (hex "603deb1015ca71be2b73aef0857d77811f352c073b6108d72d9810a30914dff4",
   hex "6bc1bee22e409f96e93d7e117393172a",
   hex "28a7023f452e8f82bd4bf28d8c37c35c");
  (hex "603deb1015ca71be2b73aef0857d77811f352c073b6108d72d9810a30914dff4",
   hex "6bc1bee22e409f96e93d7e117393172aae2d8a571e03ac9c9eb76fac45af8e51
          30c81c46a35ce411",
   hex "aaf3d8f1de5640c232f5b169b9c911e6");
  (hex "603deb1015ca71be2b73aef0857d77811f352c073b6108d72d9810a30914dff4",
   hex "6bc1bee22e409f96e93d7e117393172aae2d8a571e03ac9c9eb76fac45af8e51
          30c81c46a35ce411e5fbc1191a0a52eff69f2445df4f9b17ad2b417be66c3710",
   hex "e1992190549f6ed5696a2c056c315410")].
(** cipher/test/test_aes_siv.py:20-49 (RFC 5297 A.1, A.2): key, plain text, associated data, IV and cipher text *)
Definition siv_vectors : list (list Z * list Z * list (list Z) * list Z) := [
  (hex "fffefdfcfbfaf9f8f7f6f5f4f3f2f1f0f0f1f2f3f4f5f6f7f8f9fafbfcfdfeff", hex "112233445566778899aabbccddee",
   [hex "101112131415161718191a1b1c1d1e1f2021222324252627"],
   hex "85632d07c6e8f37f950acd320a2ecc9340c02b9690c4dc04daef7f6afe5c");
  (hex "7f7e7d7c7b7a79787776757473727170404142434445464748494a4b4c4d4e4f",
   hex "7468697320697320736f6d6520706c61696e7465787420746f20656e63727970
          74207573696e67205349562d414553",
   [hex "00112233445566778899aabbccddeeffdeaddadadeaddadaffeeddccbbaa9988
          7766554433221100";
    hex "102030405060708090a0"; hex "09f911029d74e35bd84156c5635688c0"],
   hex "7bdb6e3b432667eb06f4d14bff2fbd0fcb900f2fddbe404326601965c889bf17
          dba77ceb094fa663b7a3f748ba8af829ea64ad544a272e9c485b62a3fd5c0d")].
(** hash/test/test_hmac.py:64-115 (RFC 2104): key, data, digest *)
Definition hmac_vectors : list (list Z * list Z * list Z) := [
  (repeat 0x0b 20, ascii_octets "Hi There", hex "b617318655057264e28bc0b6fb378c8ef146be00");
  (ascii_octets "Jefe", ascii_octets "what do ya want for nothing?", hex "effcdf6ae5eb2fa2d27416d5f184df9c259a7c79");
  (repeat 0xaa 20, repeat 0xdd 50, hex "125d7342b9ac11cd91a39af48aa17b4f63f175d3")].
(** hash/test/prf_dot11_test.py:31-34: key, data, value; the prefix is "prefix".  The two longer vectors of the
    file are left out. *)
Definition prf_vector : list Z * list Z * list Z :=
  (repeat 0x0b 20, ascii_octets "Hi There", hex "bcd4c650b30b9684951829e0d75f9d54").
Definition prf_prefix : list Z := ascii_octets "prefix".
(** hash/test/michael_test.py:41-46: key, data, result *)
Definition michael_vectors : list (list Z * list Z * list Z) := [
  (hex "0000000000000000", ascii_octets "", hex "82925c1ca1d130b8");
  (hex "82925c1ca1d130b8", ascii_octets "M", hex "434721ca40639b3f");
  (hex "434721ca40639b3f", ascii_octets "Mi", hex "e8f9becae97e5d29");
  (hex "e8f9becae97e5d29", ascii_octets "Mic", hex "90038fc6cf13c1db");
  (hex "90038fc6cf13c1db", ascii_octets "Mich", hex "d55e100510128986");
  (hex "d55e100510128986", ascii_octets "Michael", hex "0a942b124ecaa546")].
(** hash/test/tkip_mic_test.py:12-79: key, source, destination, priority, payload, result (words packed
    little-endian) *)
Definition tkip_mic_vectors : list (list Z * list Z * list Z * Z * list Z * list Z) := [
  (hex "0000000000000000", hex "262524232221", hex "161514131211", 2, hex "101112131415161718191a1b1c",
   hex "4cfea3855f10f420");
  (hex "67452301efcdab89", hex "bbbbbbbbbbbb", hex "aaaaaaaaaaaa", 3,
   hex "0500afde0600afde0700afde0800afde0900afde0a00afde0b00afde0c00afde0d00afde0e00afde00ddcc",
   hex "91b397e5b7a7c4b8")].
(** hash/test/tkip_key_mixing_test.py:132-195 (IEEE 802.11i): TK, TA, IV32, IV16, phase 1 key, RC4 key *)
Definition tkip_vectors : list (list Z * list Z * list Z * list Z * list Z * list Z) := [
  (hex "000102030405060708090A0B0C0D0E0F", hex "102233445566", hex "00000000", hex "0000",
   hex "3DD2016E76F48697B2E8", hex "00200033EA8D2F60CA6D1374234A660B");
  (hex "000102030405060708090A0B0C0D0E0F", hex "102233445566", hex "00000000", hex "0001",
   hex "3DD2016E76F48697B2E8", hex "00200190FFDC314389A9D9D074FD20AA");
  (hex "63893B250840B8AE0BD0FA7E61D2783E", hex "64F2EAEDDC25", hex "20DCFD43", hex "FFFF",
   hex "7C6749D79724B5E9B4F1", hex "FF7FFF93810FC6E58F5DD326251544CE");
  (hex "63893B250840B8AE0BD0FA7E61D2783E", hex "64F2EAEDDC25", hex "20DCFD44", hex "0000",
   hex "5A5D73A8A8592EC1DC8B", hex "002000498CA471FCFBFAA16E3610F005");
  (hex "983A16EF4FACB351AA9ECC271D7309E2", hex "509C4B1727D9", hex "F0A410FC", hex "058C",
   hex "F2DFEBB188D35923A07C", hex "05258CF4D85152F4D9AF1A64F1D07021");
  (hex "983A16EF4FACB351AA9ECC271D7309E2", hex "509C4B1727D9", hex "F0A410FC", hex "058D",
   hex "F2DFEBB188D35923A07C", hex "05258D09F81543B76A596FC2C6738B30");
  (hex "C8ADC16A8B4DDA3B4DD5B65438359B05", hex "945E244E4D6E", hex "8B1573B7", hex "30F8",
   hex "EFF13F38A36460A976F3", hex "3030F8650DA073EA614EA8F474EE0319");
  (hex "C8ADC16A8B4DDA3B4DD5B65438359B05", hex "945E244E4D6E", hex "8B1573B7", hex "30F9",
   hex "EFF13F38A36460A976F3", hex "3030F93155CE293437CC76712716AB8F")].
(** the packet number octets the test passes, hash/test/tkip_key_mixing_test.py:26 *)
Definition test_pn (iv32 iv16 : list Z) : list Z := rev iv16 ++ rev iv32.
Definition words16 (p : Z * Z * Z * Z * Z) : list Z :=
  let '(a, b, c, d, e) := p in flat_map (fun w => [w / 256; w mod 256]) [a; b; c; d; e].
(** cipher/test/test_encoding.py:27-37 (RFC 1924): number, its base 85 text *)
Definition rfc1924_vector : Z * list Z := (0x108000000000000000080800200c417a, ascii_octets "4)+k&C#VzJ4br>0wv%Yp").
(** ecc/test/test_nist_curves.py:22-51: S, T; S + T, S - T, 2 S *)
Definition p192_points : (Z * Z) * (Z * Z) * (Z * Z) * (Z * Z) * (Z * Z) :=
  ((0xd458e7d127ae671b0c330266d246769353a012073e97acf8,
    0x325930500d851f336bddc050cf7fb11b5673a1645086df3b),
   (0xf22c4395213e9ebe67ddecdd87fdbd01be16fb059b9753a4,
    0x264424096af2b3597796db48f8dfb41fa9cecc97691a9c79),
   (0x48e1e4096b9b8e5ca9d0f1f077b8abf58e843894de4d0290,
    0x408fa77c797cd7dbfb16aa48a3648d3d63c94117d7b6aa4b),
   (0xfc9683cc5abfb4fe0cc8cc3bc9f61eabc4688f11e9f64a2e,
    0x93e31d00fb78269732b1bd2a73c23cdd31745d0523d816b),
   (0x30c5bc6b8c7da25354b373dc14dd8a0eba42d25a3f6e6962,
    0xdde14bc4249a721c407aedbf011e2ddbbcb2968c9d889cf)).
