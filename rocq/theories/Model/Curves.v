(** ecc/curves.py: the built-in curves.  Generated by tools/gen_curves.py from the text of the file. *)
From Coq Require Import ZArith List Bool String Ascii.
From Verif Require Import Model.Py Model.Ecc.
Import ListNotations.
Local Open Scope Z_scope.
Local Open Scope string_scope.

(** Values of class attributes. *)
Inductive attr_value := VInt (n : Z) | VStr (s : string) | VTuple (l : list Z) | VNone.
(** A class statement: its name, its base class and the assignments of its body, in order. *)
Record curve_class := CurveClass { cls_name : string; cls_base : string; cls_attrs : list (string * attr_value) }.

(** ecc/curves.py:75-90 *)
Definition cls_SECP_192r1 : curve_class :=
  let p := 0xfffffffffffffffffffffffffffffffeffffffffffffffff in
  CurveClass "SECP_192r1" "SmallWeierstrassCurveFp" [
    ("curveId", VStr "secp192r1");
    ("strength", VInt 80);
    ("oid", VTuple [1; 2; 840; 10045; 3; 1; 1]);
    ("p", VInt p);
    ("a", VInt (p - 3));
    ("b", VInt 0x64210519e59c80e70fa7e9ab72243049feb8deecc146b9b1);
    ("xG", VInt 0x188da80eb03090f67cbf20eb43a18800f4ff0afd82ff1012);
    ("yG", VInt 0x07192b95ffc8da78631011ed6b24cdd573f977a11e794811);
    ("n", VInt 6277101735386680763835789423176059013767194773182842284081);
    ("h", VInt 1);
    ("seed", VInt 0x3045ae6fc8422f64ed579528d38120eae12196d5);
    ("seed_c", VInt 0x3099d2bbbfcb2538542dcd5fb078b6ef5f3d6fe2c745de65)].

(** ecc/curves.py:96-97 *)
Definition cls_NIST_P192 : curve_class :=
  CurveClass "NIST_P192" "SECP_192r1" [
    ("curveId", VStr "nistP192")].

(** ecc/curves.py:100-115 *)
Definition cls_SECP_224r1 : curve_class :=
  let p := 0xffffffffffffffffffffffffffffffff000000000000000000000001 in
  CurveClass "SECP_224r1" "SmallWeierstrassCurveFp" [
    ("curveId", VStr "secp224r1");
    ("strength", VInt 112);
    ("oid", VTuple [1; 3; 132; 0; 33]);
    ("p", VInt p);
    ("a", VInt (p - 3));
    ("b", VInt 0xb4050a850c04b3abf54132565044b0b7d7bfd8ba270b39432355ffb4);
    ("xG", VInt 0xb70e0cbd6bb4bf7f321390b94a03c1d356c21122343280d6115c1d21);
    ("yG", VInt 0xbd376388b5f723fb4c22dfe6cd4375a05a07476444d5819985007e34);
    ("n", VInt 0xffffffffffffffffffffffffffff16a2e0b8f03e13dd29455c5c2a3d);
    ("h", VInt 1);
    ("seed", VInt 0xbd71344799d5c7fcdc45b59fa3b9ab8f6a948bc5);
    ("seed_c", VInt 0x5b056c7e11dd68f40469ee7f3c7a7d74f7d121116506d031218291fb)].

(** ecc/curves.py:118-119 *)
Definition cls_NIST_P224 : curve_class :=
  CurveClass "NIST_P224" "SECP_224r1" [
    ("curveId", VStr "nistP224")].

(** ecc/curves.py:122-136 *)
Definition cls_SECP_256k1 : curve_class :=
  CurveClass "SECP_256k1" "KoblitzCurveFp" [
    ("curveId", VStr "secp256k1");
    ("strength", VInt 128);
    ("oid", VTuple [1; 3; 132; 0; 10]);
    ("p", VInt 0xfffffffffffffffffffffffffffffffffffffffffffffffffffffffefffffc2f);
    ("b", VInt 7);
    ("xG", VInt 0x79be667ef9dcbbac55a06295ce870b07029bfcdb2dce28d959f2815b16f81798);
    ("yG", VInt 0x483ada7726a3c4655da4fbfc0e1108a8fd17b448a68554199c47d08ffb10d4b8);
    ("n", VInt 0xfffffffffffffffffffffffffffffffebaaedce6af48a03bbfd25e8cd0364141);
    ("h", VInt 1)].

(** ecc/curves.py:139-155 *)
Definition cls_SECP_256r1 : curve_class :=
  let p := 0xffffffff00000001000000000000000000000000ffffffffffffffffffffffff in
  CurveClass "SECP_256r1" "SmallWeierstrassCurveFp" [
    ("curveId", VStr "secp256r1");
    ("strength", VInt 128);
    ("oid", VTuple [1; 2; 840; 10045; 3; 1; 7]);
    ("p", VInt p);
    ("a", VInt (p - 3));
    ("b", VInt 0x5ac635d8aa3a93e7b3ebbd55769886bc651d06b0cc53b0f63bce3c3e27d2604b);
    ("xG", VInt 0x6b17d1f2e12c4247f8bce6e563a440f277037d812deb33a0f4a13945d898c296);
    ("yG", VInt 0x4fe342e2fe1a7f9b8ee7eb4a7c0f9e162bce33576b315ececbb6406837bf51f5);
    ("n", VInt 115792089210356248762697446949407573529996955224135760342422259061068512044369);
    ("h", VInt 1);
    ("seed", VInt 0xc49d360886e704936a6678e1139d26b7819f7e90);
    ("seed_c", VInt 0x7efba1662985be9403cb055c75d4f7e0ce8d84a9c5114abcaf3177680104fa0d)].

(** ecc/curves.py:158-159 *)
Definition cls_NIST_P256 : curve_class :=
  CurveClass "NIST_P256" "SECP_256r1" [
    ("curveId", VStr "nistP256")].

(** ecc/curves.py:162-176 *)
Definition cls_WAPI : curve_class :=
  CurveClass "WAPI" "SmallWeierstrassCurveFp" [
    ("curveId", VStr "wapi");
    ("strength", VInt 96);
    ("oid", VTuple [1; 2; 156; 1001; 5; 40; 1]);
    ("p", VInt 0xbdb6f4fe3e8b1d9e0da8c0d46f4c318cefe4afe3b6b8551f);
    ("a", VInt 0xbb8e5e8fbc115e139fe6a814fe48aaa6f0ada1aa5df91985);
    ("b", VInt 0x1854bebdc31b21b7aefc80ab0ecd10d5b1b3308e6dbf11c1);
    ("xG", VInt 0x4ad5f7048de709ad51236de65e4d4b482c836dc6e4106640);
    ("yG", VInt 0x02bb3a02d4aaadacae24817a4ca3a1b014b5270432db27d2);
    ("n", VInt 0xbdb6f4fe3e8b1d9e0da8c0d40fc962195dfae76f56564677);
    ("h", VInt 1)].

(** ecc/curves.py:179-194 *)
Definition cls_SWP256CCAO01 : curve_class :=
  CurveClass "SWP256CCAO01" "SmallWeierstrassCurveFp" [
    ("curveId", VStr "swp256cccao01");
    ("strength", VInt 128);
    ("oid", VNone);
    ("p", VInt 0x8542D69E4C044F18E8B92435BF6FF7DE457283915C45517D722EDB8B08F1DFC3);
    ("a", VInt 0x787968B4FA32C3FD2417842E73BBFEFF2F3C848B6831D7E0EC65228B3937E498);
    ("b", VInt 0x63E4C6D3B23B0C849CF84241484BFE48F61D59A5B16BA06E6E12D1DA27C5249A);
    ("xG", VInt 0x421DEBD61B62EAB6746434EBC3CC315E32220B3BADD50BDC4C4E6C147FEDD43D);
    ("yG", VInt 0x0680512BCBB42C07D47349D2153B70C4E5D7FDFCBFA36EA1A85841B9E46E09A2);
    ("n", VInt 0x8542D69E4C044F18E8B92435BF6FF7DD297720630485628D5AE74EE7C32E79B7);
    ("h", VInt 1)].

(** ecc/curves.py:197-213 *)
Definition cls_SWP256SM2 : curve_class :=
  let p := 0xFFFFFFFEFFFFFFFFFFFFFFFFFFFFFFFFFFFFFFFF00000000FFFFFFFFFFFFFFFF in
  CurveClass "SWP256SM2" "SmallWeierstrassCurveFp" [
    ("curveId", VStr "swp256sm2");
    ("strength", VInt 128);
    ("oid", VNone);
    ("p", VInt p);
    ("a", VInt (p - 3));
    ("b", VInt 0x28E9FA9E9D9F5E344D5A9E4BCF6509A7F39789F515AB8F92DDBCBD414D940E93);
    ("xG", VInt 0x32C4AE2C1F1981195F9904466A39C9948FE30BBFF2660BE1715A4589334C74C7);
    ("yG", VInt 0xBC3736A2F4F6779C59BDCEE36B692153D0A9877CC62A474002DF32E52139F0A0);
    ("n", VInt 0xFFFFFFFEFFFFFFFFFFFFFFFFFFFFFFFF7203DF6B21C6052B53BBF40939D54123);
    ("h", VInt 1)].

(** ecc/curves.py:220-231 *)
Definition cls_GOST2001_test : curve_class :=
  CurveClass "GOST2001_test" "SmallWeierstrassCurveFp" [
    ("curveId", VStr "GOST2001-test");
    ("strength", VInt 128);
    ("oid", VTuple [1; 2; 643; 2; 2; 35; 0]);
    ("p", VInt 0x8000000000000000000000000000000000000000000000000000000000000431);
    ("a", VInt 0x0000000000000000000000000000000000000000000000000000000000000007);
    ("b", VInt 0x5fbff498aa938ce739b8e022fbafef40563f6e6a3472fc2a514c0ce9dae23b7e);
    ("xG", VInt 0x0000000000000000000000000000000000000000000000000000000000000002);
    ("yG", VInt 0x08e2a8a0e65147d4bd6316030e16d19c85c97f0a9ca267122b96abbcea7e8fc8);
    ("n", VInt 0x8000000000000000000000000000000150fe8a1892976154c59cfc193accf5b3);
    ("h", VInt 1)].

(** ecc/curves.py:234-245 *)
Definition cls_GOST2001_CryptoPro_A : curve_class :=
  CurveClass "GOST2001_CryptoPro_A" "SmallWeierstrassCurveFp" [
    ("curveId", VStr "GOST2001-CryptoPro-A");
    ("strength", VInt 128);
    ("oid", VTuple [1; 2; 643; 2; 2; 35; 1]);
    ("p", VInt 0xfffffffffffffffffffffffffffffffffffffffffffffffffffffffffffffd97);
    ("a", VInt 0xfffffffffffffffffffffffffffffffffffffffffffffffffffffffffffffd94);
    ("b", VInt 0x00000000000000000000000000000000000000000000000000000000000000a6);
    ("xG", VInt 0x0000000000000000000000000000000000000000000000000000000000000001);
    ("yG", VInt 0x8d91e471e0989cda27df505a453f2b7635294f2ddf23e3b122acc99c9e9f1e14);
    ("n", VInt 0xffffffffffffffffffffffffffffffff6c611070995ad10045841b09b761b893);
    ("h", VInt 1)].

(** ecc/curves.py:248-259 *)
Definition cls_GOST2001_CryptoPro_B : curve_class :=
  CurveClass "GOST2001_CryptoPro_B" "SmallWeierstrassCurveFp" [
    ("curveId", VStr "GOST2001-CryptoPro-B");
    ("strength", VInt 128);
    ("oid", VTuple [1; 2; 643; 2; 2; 35; 2]);
    ("p", VInt 0x8000000000000000000000000000000000000000000000000000000000000c99);
    ("a", VInt 0x8000000000000000000000000000000000000000000000000000000000000c96);
    ("b", VInt 0x3e1af419a269a5f866a7d3c25c3df80ae979259373ff2b182f49d4ce7e1bbc8b);
    ("xG", VInt 0x0000000000000000000000000000000000000000000000000000000000000001);
    ("yG", VInt 0x3fa8124359f96680b83d1c3eb2c070e5c545c9858d03ecfb744bf8d717717efc);
    ("n", VInt 0x800000000000000000000000000000015f700cfff1a624e5e497161bcc8a198f);
    ("h", VInt 1)].

(** ecc/curves.py:262-273 *)
Definition cls_GOST2001_CryptoPro_C : curve_class :=
  CurveClass "GOST2001_CryptoPro_C" "SmallWeierstrassCurveFp" [
    ("curveId", VStr "GOST2001-CryptoPro-C");
    ("strength", VInt 128);
    ("oid", VTuple [1; 2; 643; 2; 2; 35; 3]);
    ("p", VInt 0x9b9f605f5a858107ab1ec85e6b41c8aacf846e86789051d37998f7b9022d759b);
    ("a", VInt 0x9b9f605f5a858107ab1ec85e6b41c8aacf846e86789051d37998f7b9022d7598);
    ("b", VInt 0x000000000000000000000000000000000000000000000000000000000000805a);
    ("xG", VInt 0x0000000000000000000000000000000000000000000000000000000000000000);
    ("yG", VInt 0x41ece55743711a8c3cbf3783cd08c0ee4d4dc440d4641a8f366e550dfdb3bb67);
    ("n", VInt 0x9b9f605f5a858107ab1ec85e6b41c8aa582ca3511eddfb74f02f3a6598980bb9);
    ("h", VInt 1)].

(** ecc/curves.py:276-287 *)
Definition cls_GOST2012_test : curve_class :=
  CurveClass "GOST2012_test" "SmallWeierstrassCurveFp" [
    ("curveId", VStr "GOST2012-test");
    ("strength", VInt 255);
    ("oid", VTuple [1; 2; 643; 7; 1; 2; 1; 2; 0]);
    ("p", VInt 0x4531acd1fe0023c7550d267b6b2fee80922b14b2ffb90f04d4eb7c09b5d2d15df1d852741af4704a0458047e80e4546d35b8336fac224dd81664bbf528be6373);
    ("a", VInt 0x0000000000000000000000000000000000000000000000000000000000000007);
    ("b", VInt 0x1cff0806a31116da29d8cfa54e57eb748bc5f377e49400fdd788b649eca1ac4361834013b2ad7322480a89ca58e0cf74bc9e540c2add6897fad0a3084f302adc);
    ("xG", VInt 0x24d19cc64572ee30f396bf6ebbfd7a6c5213b3b3d7057cc825f91093a68cd762fd60611262cd838dc6b60aa7eee804e28bc849977fac33b4b530f1b120248a9a);
    ("yG", VInt 0x2bb312a43bd2ce6e0d020613c857acddcfbf061e91e5f2c3f32447c259f39b2c83ab156d77f1496bf7eb3351e1ee4e43dc1a18b91b24640b6dbb92cb1add371e);
    ("n", VInt 0x4531acd1fe0023c7550d267b6b2fee80922b14b2ffb90f04d4eb7c09b5d2d15da82f2d7ecb1dbac719905c5eecc423f1d86e25edbe23c595d644aaf187e6e6df);
    ("h", VInt 1)].

(** ecc/curves.py:290-301 *)
Definition cls_GOST2012_tc26_A : curve_class :=
  CurveClass "GOST2012_tc26_A" "SmallWeierstrassCurveFp" [
    ("curveId", VStr "GOST2012-tc26-A");
    ("strength", VInt 512);
    ("oid", VTuple [1; 2; 643; 7; 1; 2; 1; 2; 1]);
    ("p", VInt 0xfffffffffffffffffffffffffffffffffffffffffffffffffffffffffffffffffffffffffffffffffffffffffffffffffffffffffffffffffffffffffffffdc7);
    ("a", VInt 0xfffffffffffffffffffffffffffffffffffffffffffffffffffffffffffffffffffffffffffffffffffffffffffffffffffffffffffffffffffffffffffffdc4);
    ("b", VInt 0xe8c2505dedfc86ddc1bd0b2b6667f1da34b82574761cb0e879bd081cfd0b6265ee3cb090f30d27614cb4574010da90dd862ef9d4ebee4761503190785a71c760);
    ("xG", VInt 0x00000000000000000000000000000000000000000000000000000000000000000000000000000000000000000000000000000000000000000000000000000003);
    ("yG", VInt 0x7503cfe87a836ae3a61b8816e25450e6ce5e1c93acf1abc1778064fdcbefa921df1626be4fd036e93d75e6a50e3a41e98028fe5fc235f5b889a589cb5215f2a4);
    ("n", VInt 0xffffffffffffffffffffffffffffffffffffffffffffffffffffffffffffffff27e69532f48d89116ff22b8d4e0560609b4b38abfad2b85dcacdb1411f10b275);
    ("h", VInt 1)].

(** ecc/curves.py:304-314 *)
Definition cls_GOST2012_tc26_B : curve_class :=
  CurveClass "GOST2012_tc26_B" "SmallWeierstrassCurveFp" [
    ("curveId", VStr "GOST2012-tc26-B");
    ("strength", VInt 512);
    ("oid", VTuple [1; 2; 643; 7; 1; 2; 1; 2; 2]);
    ("p", VInt 0x8000000000000000000000000000000000000000000000000000000000000000000000000000000000000000000000000000000000000000000000000000006f);
    ("a", VInt 0x8000000000000000000000000000000000000000000000000000000000000000000000000000000000000000000000000000000000000000000000000000006c);
    ("b", VInt 0x687d1b459dc841457e3e06cf6f5e2517b97c7d614af138bcbf85dc806c4b289f3e965d2db1416d217f8b276fad1ab69c50f78bee1fa3106efb8ccbc7c5140116);
    ("xG", VInt 0x00000000000000000000000000000000000000000000000000000000000000000000000000000000000000000000000000000000000000000000000000000002);
    ("yG", VInt 0x1a8f7eda389b094c2c071e3647a8940f3c123b697578c213be6dd9e6c8ec7335dcb228fd1edf4a39152cbcaaf8c0398828041055f94ceeec7e21340780fe41bd);
    ("n", VInt 0x800000000000000000000000000000000000000000000000000000000000000149a1ec142565a545acfdb77bd9d40cfa8b996712101bea0ec6346c54374f25bd);
    ("h", VInt 1)].

(** ecc/curves.py:317-348 *)
Definition cls_GOSTmsg05975te : curve_class :=
  CurveClass "GOSTmsg05975te" "TwistedEdwardsCurveFp" [
    ("curveId", VStr "GOSTmsg05975te");
    ("strength", VInt 256);
    ("oid", VNone);
    ("p", VInt (2 ^ 512 - 569));
    ("d", VInt 0x9E4F5D8C017D8D9F13A5CF3CDF5BFE4DAB402D54198E31EBDE28A0621050439CA6B39E0A515C06B304E2CE43E79E369E91A0CFC2BC2A22B4CA302DBB33EE7550);
    ("a", VInt 1);
    ("n", VInt 0xFFFFFFFFFFFFFFFFFFFFFFFFFFFFFFFFFFFFFFFFFFFFFFFFFFFFFFFFFFFFFFFF26336E91941AAC0130CEA7FD451D40B323B6A79E9DA6849A5188F3BD1FC08FB4);
    ("q", VInt 0x3FFFFFFFFFFFFFFFFFFFFFFFFFFFFFFFFFFFFFFFFFFFFFFFFFFFFFFFFFFFFFFFC98CDBA46506AB004C33A9FF5147502CC8EDA9E7A769A12694623CEF47F023ED);
    ("n", VInt 0x40000000000000000000000000000000000000000000000000000000000000003673245b9af954ffb3cc5600aeb8afd33712561858965ed96b9dc310b80fdaf7);
    ("xG", VInt 0x12);
    ("yG", VInt 0x469AF79D1FB1F5E16B99592B77A01E2A0FDFB0D01794368D9A56117F7B38669522DD4B650CF789EEBF068C5D139732F0905622C04B2BAAE7600303EE73001A3D);
    ("h", VInt 4);
    ("seed", VInt 0x1FBB7969B91B3EA08117FB1074BFBF5549DD660763F6A5AF0957775B664CB113CFCB91C4A77D279806BCF24A5677F25EAFFEC66776702EE2C7AA84160750DA1DD150AED28C3026AC7ED6D19B97AC2CB5827C0003184713535BFA6524B3E46083)].

(** ecc/curves.py:351-366 *)
Definition cls_GOSTmsg05975sw : curve_class :=
  CurveClass "GOSTmsg05975sw" "SmallWeierstrassCurveFp" [
    ("curveId", VStr "GOSTmsg05975sw");
    ("strength", VInt 256);
    ("oid", VNone);
    ("p", VInt (2 ^ 512 - 569));
    ("a", VInt 0xDC9203E514A721875485A529D2C722FB187BC8980EB866644DE41C68E143064546E861C0E2C9EDD92ADE71F46FCF50FF2AD97F951FDA9F2A2EB6546F39689BD3);
    ("b", VInt 0xB4C4EE28CEBC6C2C8AC12952CF37F16AC7EFB6A9F69F4B57FFDA2E4F0DE5ADE038CBC2FFF719D2C18DE0284B8BFEF3B52B8CC7A5F5BF0A3C8D2319A5312557E1);
    ("xG", VInt 0xE2E31EDFC23DE7BDEBE241CE593EF5DE2295B7A9CBAEF021D385F7074CEA043AA27272A7AE602BF2A7B9033DB9ED3610C6FB85487EAE97AAC5BC7928C1950148);
    ("yG", VInt 0xF5CE40D95B5EB899ABBCCFF5911CB8577939804D6527378B8C108C3D2090FF9BE18E2D33E3021ED2EF32D85822423B6304F726AA854BAE07D0396E9A9ADDC40F);
    ("n", VInt 0xFFFFFFFFFFFFFFFFFFFFFFFFFFFFFFFFFFFFFFFFFFFFFFFFFFFFFFFFFFFFFFFF26336E91941AAC0130CEA7FD451D40B323B6A79E9DA6849A5188F3BD1FC08FB4);
    ("q", VInt 0x3FFFFFFFFFFFFFFFFFFFFFFFFFFFFFFFFFFFFFFFFFFFFFFFFFFFFFFFFFFFFFFFC98CDBA46506AB004C33A9FF5147502CC8EDA9E7A769A12694623CEF47F023ED);
    ("h", VInt 4)].

(** ecc/curves.py:369-382 *)
Definition cls_FRP256v1 : curve_class :=
  let p := 0xF1FD178C0B3AD58F10126DE8CE42435B3961ADBCABC8CA6DE8FCF353D86E9C03 in
  CurveClass "FRP256v1" "SmallWeierstrassCurveFp" [
    ("curveId", VStr "frp256v1");
    ("strength", VInt 128);
    ("oid", VTuple [1; 2; 250; 1; 223; 101; 256; 1]);
    ("p", VInt p);
    ("a", VInt (p - 3));
    ("b", VInt 0xEE353FCA5428A9300D4ABA754A44C00FDFEC0C9AE4B1A1803075ED967B7BB73F);
    ("xG", VInt 0xB6B3D4C356C139EB31183D4749D423958C27D2DCAF98B70164C97A2DD98F5CFF);
    ("yG", VInt 0x6142E0F7C8B204911F9271F0F3ECEF8C2701C307E8E4C9E183115A1554062CFB);
    ("n", VInt 0xF1FD178C0B3AD58F10126DE8CE42435B53DC67E140D2BF941FFDD459C6D655E1);
    ("h", VInt 1)].

(** ecc/curves.py:385-399 *)
Definition cls_SECP_384r1 : curve_class :=
  let p := 39402006196394479212279040100143613805079739270465446667948293404245721771496870329047266088258938001861606973112319 in
  CurveClass "SECP_384r1" "SmallWeierstrassCurveFp" [
    ("curveId", VStr "secp384r1");
    ("strength", VInt 192);
    ("oid", VTuple [1; 3; 132; 0; 34]);
    ("p", VInt p);
    ("a", VInt (p - 3));
    ("b", VInt 0xb3312fa7e23ee7e4988e056be3f82d19181d9c6efe8141120314088f5013875ac656398d8a2ed19d2a85c8edd3ec2aef);
    ("xG", VInt 0xaa87ca22be8b05378eb1c71ef320ad746e1d3b628ba79b9859f741e082542a385502f25dbf55296c3a545e3872760ab7);
    ("yG", VInt 0x3617de4a96262c6f5d9e98bf9292dc29f8f41dbd289a147ce9da3113b5f0b8c00a60b1ce1d7e819d7a431d7c90ea0e5f);
    ("n", VInt 39402006196394479212279040100143613805079739270465446667946905279627659399113263569398956308152294913554433653942643);
    ("h", VInt 1);
    ("seed", VInt 0xa335926aa319a27a1d00896a6773a4827acdac73);
    ("seed_c", VInt 0x79d1e655f868f02fff48dcdee14151ddb80643c1406d0ca10dfe6fc52009540a495e8042ea5f744f6e184667cc722483)].

(** ecc/curves.py:402-403 *)
Definition cls_NIST_P384 : curve_class :=
  CurveClass "NIST_P384" "SECP_384r1" [
    ("curveId", VStr "nistP384")].

(** ecc/curves.py:406-421 *)
Definition cls_SECP_521r1 : curve_class :=
  let p := 0x1ffffffffffffffffffffffffffffffffffffffffffffffffffffffffffffffffffffffffffffffffffffffffffffffffffffffffffffffffffffffffffffffffff in
  CurveClass "SECP_521r1" "SmallWeierstrassCurveFp" [
    ("curveId", VStr "secp256r1");
    ("strength", VInt 256);
    ("oid", VTuple [1; 3; 132; 0; 35]);
    ("p", VInt p);
    ("a", VInt (p - 3));
    ("b", VInt 0x051953eb9618e1c9a1f929a21a0b68540eea2da725b99b315f3b8b489918ef109e156193951ec7e937b1652c0bd3bb1bf073573df883d2c34f1ef451fd46b503f00);
    ("xG", VInt 0x0c6858e06b70404e9cd9e3ecb662395b4429c648139053fb521f828af606b4d3dbaa14b5e77efe75928fe1dc127a2ffa8de3348b3c1856a429bf97e7e31c2e5bd66);
    ("yG", VInt 0x11839296a789a3bc0045c8a5fb42c7d1bd998f54449579b446817afbd17273e662c97ee72995ef42640c550b9013fad0761353c7086a272c24088be94769fd16650);
    ("n", VInt 0x1fffffffffffffffffffffffffffffffffffffffffffffffffffffffffffffffffa51868783bf2f966b7fcc0148f709a5d03bb5c9b8899c47aebb6fb71e91386409);
    ("h", VInt 1);
    ("seed", VInt 0xd09e8800291cb85396cc6717393284aaa0da64ba);
    ("seed_c", VInt 0x0b48bfa5f420a34949539d2bdfc264eeeeb077688e44fbf0ad8f6d0edb37bd6b533281000518e19f1b9ffbe0fe9ed8a3c2200b8f875e523868c70c1e5bf55bad637)].

(** ecc/curves.py:424-425 *)
Definition cls_NIST_P521 : curve_class :=
  CurveClass "NIST_P521" "SECP_521r1" [
    ("curveId", VStr "nistP521")].

(** ecc/curves.py:434-447 *)
Definition cls_BrainPoolP160r1 : curve_class :=
  CurveClass "BrainPoolP160r1" "SmallWeierstrassCurveFp" [
    ("curveId", VStr "brainpoolP160r1");
    ("strength", VInt 80);
    ("oid", VTuple [1; 3; 36; 3; 2; 8; 1; 1; 1]);
    ("p", VInt 0xE95E4A5F737059DC60DFC7AD95B3D8139515620F);
    ("a", VInt 0x340E7BE2A280EB74E2BE61BADA745D97E8F7C300);
    ("b", VInt 0x1E589A8595423412134FAA2DBDEC95C8D8675E58);
    ("xG", VInt 0xBED5AF16EA3F6A4F62938C4631EB5AF7BDBCDBC3);
    ("yG", VInt 0x1667CB477A1A8EC338F94741669C976316DA6321);
    ("n", VInt 0xE95E4A5F737059DC60DF5991D45029409E60FC09);
    ("h", VInt 1);
    ("seed_p", VInt 0x3243F6A8885A308D313198A2E03707344A409382);
    ("seed_ab", VInt 0x2B7E151628AED2A6ABF7158809CF4F3C762E7160)].

(** ecc/curves.py:450-464 *)
Definition cls_BrainPoolP160t1 : curve_class :=
  let p := 0xE95E4A5F737059DC60DFC7AD95B3D8139515620F in
  CurveClass "BrainPoolP160t1" "SmallWeierstrassCurveFp" [
    ("curveId", VStr "brainpoolP160t1");
    ("strength", VInt 80);
    ("oid", VTuple [1; 3; 36; 3; 2; 8; 1; 1; 2]);
    ("p", VInt p);
    ("a", VInt (p - 3));
    ("b", VInt 0x7A556B6DAE535B7B51ED2C4D7DAA7A0B5C55F380);
    ("xG", VInt 0xB199B13B9B34EFC1397E64BAEB05ACC265FF2378);
    ("yG", VInt 0xADD6718B7C7C1961F0991B842443772152C9E0AD);
    ("n", VInt 0xE95E4A5F737059DC60DF5991D45029409E60FC09);
    ("h", VInt 1);
    ("z", VInt 0x24DBFF5DEC9B986BBFE5295A29BFBAE45E0F5D0B)].

(** ecc/curves.py:467-480 *)
Definition cls_BrainPoolP192r1 : curve_class :=
  CurveClass "BrainPoolP192r1" "SmallWeierstrassCurveFp" [
    ("curveId", VStr "brainpoolP192r1");
    ("strength", VInt 96);
    ("oid", VTuple [1; 3; 36; 3; 2; 8; 1; 1; 3]);
    ("p", VInt 0xC302F41D932A36CDA7A3463093D18DB78FCE476DE1A86297);
    ("a", VInt 0x6A91174076B1E0E19C39C031FE8685C1CAE040E5C69A28EF);
    ("b", VInt 0x469A28EF7C28CCA3DC721D044F4496BCCA7EF4146FBF25C9);
    ("xG", VInt 0xC0A0647EAAB6A48753B033C56CB0F0900A2F5C4853375FD6);
    ("yG", VInt 0x14B690866ABD5BB88B5F4828C1490002E6773FA2FA299B8F);
    ("n", VInt 0xC302F41D932A36CDA7A3462F9E9E916B5BE8F1029AC4ACC1);
    ("h", VInt 1);
    ("seed_p", VInt 0x2299F31D0082EFA98EC4E6C89452821E638D0137);
    ("seed_ab", VInt 0xF38B4DA56A784D9045190CFEF324E7738926CFBE)].

(** ecc/curves.py:483-495 *)
Definition cls_BrainPoolP192t1 : curve_class :=
  let p := 0xC302F41D932A36CDA7A3463093D18DB78FCE476DE1A86297 in
  CurveClass "BrainPoolP192t1" "SmallWeierstrassCurveFp" [
    ("curveId", VStr "brainpoolP192t1");
    ("strength", VInt 96);
    ("oid", VTuple [1; 3; 36; 3; 2; 8; 1; 1; 4]);
    ("p", VInt p);
    ("a", VInt (p - 3));
    ("b", VInt 0x13D56FFAEC78681E68F9DEB43B35BEC2FB68542E27897B79);
    ("xG", VInt 0x3AE9E58C82F63C30282E1FE7BBF43FA72C446AF6F4618129);
    ("yG", VInt 0x097E2C5667C2223A902AB5CA449D0084B7E5B3DE7CCC01C9);
    ("n", VInt 0xC302F41D932A36CDA7A3462F9E9E916B5BE8F1029AC4ACC1);
    ("h", VInt 1);
    ("z", VInt 0x1B6F5CC8DB4DC7AF19458A9CB80DC2295E5EB9C3732104CB)].

(** ecc/curves.py:498-511 *)
Definition cls_BrainPoolP224r1 : curve_class :=
  CurveClass "BrainPoolP224r1" "SmallWeierstrassCurveFp" [
    ("curveId", VStr "brainpoolP224r1");
    ("strength", VInt 112);
    ("oid", VTuple [1; 3; 36; 3; 2; 8; 1; 1; 5]);
    ("p", VInt 0xD7C134AA264366862A18302575D1D787B09F075797DA89F57EC8C0FF);
    ("a", VInt 0x68A5E62CA9CE6C1C299803A6C1530B514E182AD8B0042A59CAD29F43);
    ("b", VInt 0x2580F63CCFE44138870713B1A92369E33E2135D266DBB372386C400B);
    ("xG", VInt 0x0D9029AD2C7E5CF4340823B2A87DC68C9E4CE3174C1E6EFDEE12C07D);
    ("yG", VInt 0x58AA56F772C0726F24C6B89E4ECDAC24354B9E99CAA3F6D3761402CD);
    ("n", VInt 0xD7C134AA264366862A18302575D0FB98D116BC4B6DDEBCA3A5A7939F);
    ("h", VInt 1);
    ("seed_p", VInt 0x7BE5466CF34E90C6CC0AC29B7C97C50DD3F84D5B);
    ("seed_ab", VInt 0x5F4BF8D8D8C31D763DA06C80ABB1185EB4F7C7B5)].

(** ecc/curves.py:514-526 *)
Definition cls_BrainPoolP224t1 : curve_class :=
  let p := 0xD7C134AA264366862A18302575D1D787B09F075797DA89F57EC8C0FF in
  CurveClass "BrainPoolP224t1" "SmallWeierstrassCurveFp" [
    ("curveId", VStr "brainpoolP224t1");
    ("strength", VInt 112);
    ("oid", VTuple [1; 3; 36; 3; 2; 8; 1; 1; 6]);
    ("p", VInt p);
    ("a", VInt (p - 3));
    ("b", VInt 0x4B337D934104CD7BEF271BF60CED1ED20DA14C08B3BB64F18A60888D);
    ("xG", VInt 0x6AB1E344CE25FF3896424E7FFE14762ECB49F8928AC0C76029B4D580);
    ("yG", VInt 0x0374E9F5143E568CD23F3F4D7C0D4B1E41C8CC0D1C6ABD5F1A46DB4C);
    ("n", VInt 0xD7C134AA264366862A18302575D0FB98D116BC4B6DDEBCA3A5A7939F);
    ("h", VInt 1);
    ("z", VInt 0x2DF271E14427A346910CF7A2E6CFA7B3F484E5C2CCE1C8B730E28B3F)].

(** ecc/curves.py:529-542 *)
Definition cls_BrainPoolP256r1 : curve_class :=
  CurveClass "BrainPoolP256r1" "SmallWeierstrassCurveFp" [
    ("curveId", VStr "brainpoolP256r1");
    ("strength", VInt 128);
    ("oid", VTuple [1; 3; 36; 3; 2; 8; 1; 1; 7]);
    ("p", VInt 0xA9FB57DBA1EEA9BC3E660A909D838D726E3BF623D52620282013481D1F6E5377);
    ("a", VInt 0x7D5A0975FC2C3057EEF67530417AFFE7FB8055C126DC5C6CE94A4B44F330B5D9);
    ("b", VInt 0x26DC5C6CE94A4B44F330B5D9BBD77CBF958416295CF7E1CE6BCCDC18FF8C07B6);
    ("xG", VInt 0x8BD2AEB9CB7E57CB2C4B482FFC81B7AFB9DE27E1E3BD23C23A4453BD9ACE3262);
    ("yG", VInt 0x547EF835C3DAC4FD97F8461A14611DC9C27745132DED8E545C1D54C72F046997);
    ("n", VInt 0xA9FB57DBA1EEA9BC3E660A909D838D718C397AA3B561A6F7901E0E82974856A7);
    ("h", VInt 1);
    ("seed_p", VInt 0x5B54709179216D5D98979FB1BD1310BA698DFB5A);
    ("seed_ab", VInt 0x757F5958490CFD47D7C19BB42158D9554F7B46BC)].

(** ecc/curves.py:545-555 *)
Definition cls_BrainPoolP256t1 : curve_class :=
  let p := 0xA9FB57DBA1EEA9BC3E660A909D838D726E3BF623D52620282013481D1F6E5377 in
  CurveClass "BrainPoolP256t1" "SmallWeierstrassCurveFp" [
    ("curveId", VStr "brainpoolP256t1");
    ("strength", VInt 128);
    ("oid", VTuple [1; 3; 36; 3; 2; 8; 1; 1; 8]);
    ("p", VInt p);
    ("a", VInt (p - 3));
    ("b", VInt 0x662C61C430D84EA4FE66A7733D0B76B7BF93EBC4AF2F49256AE58101FEE92B04);
    ("xG", VInt 0xA3E8EB3CC1CFE7B7732213B23A656149AFA142C47AAFBC2B79A191562E1305F4);
    ("yG", VInt 0x2D996C823439C56D7F7B22E14644417E69BCB6DE39D027001DABE8F35B25C9BE);
    ("n", VInt 0xA9FB57DBA1EEA9BC3E660A909D838D718C397AA3B561A6F7901E0E82974856A7);
    ("h", VInt 1)].

(** ecc/curves.py:558-571 *)
Definition cls_BrainPoolP320r1 : curve_class :=
  CurveClass "BrainPoolP320r1" "SmallWeierstrassCurveFp" [
    ("curveId", VStr "brainpoolP320r1");
    ("strength", VInt 160);
    ("oid", VTuple [1; 3; 36; 3; 2; 8; 1; 1; 9]);
    ("p", VInt 0xD35E472036BC4FB7E13C785ED201E065F98FCFA6F6F40DEF4F92B9EC7893EC28FCD412B1F1B32E27);
    ("a", VInt 0x3EE30B568FBAB0F883CCEBD46D3F3BB8A2A73513F5EB79DA66190EB085FFA9F492F375A97D860EB4);
    ("b", VInt 0x520883949DFDBC42D3AD198640688A6FE13F41349554B49ACC31DCCD884539816F5EB4AC8FB1F1A6);
    ("xG", VInt 0x43BD7E9AFB53D8B85289BCC48EE5BFE6F20137D10A087EB6E7871E2A10A599C710AF8D0D39E20611);
    ("yG", VInt 0x14FDD05545EC1CC8AB4093247F77275E0743FFED117182EAA9C77877AAAC6AC7D35245D1692E8EE1);
    ("n", VInt 0xD35E472036BC4FB7E13C785ED201E065F98FCFA5B68F12A32D482EC7EE8658E98691555B44C59311);
    ("h", VInt 1);
    ("seed_p", VInt 0xC2FFD72DBD01ADFB7B8E1AFED6A267E96BA7C904);
    ("seed_ab", VInt 0xED55C4D79FD5F24D6613C31C3839A2DDF8A9A276)].

(** ecc/curves.py:574-586 *)
Definition cls_BrainPoolP320t1 : curve_class :=
  let p := 0xD35E472036BC4FB7E13C785ED201E065F98FCFA6F6F40DEF4F92B9EC7893EC28FCD412B1F1B32E27 in
  CurveClass "BrainPoolP320t1" "SmallWeierstrassCurveFp" [
    ("curveId", VStr "brainpoolP320t1");
    ("strength", VInt 160);
    ("oid", VTuple [1; 3; 36; 3; 2; 8; 1; 1; 10]);
    ("p", VInt p);
    ("a", VInt (p - 3));
    ("b", VInt 0xA7F561E038EB1ED560B3D147DB782013064C19F27ED27C6780AAF77FB8A547CEB5B4FEF422340353);
    ("xG", VInt 0x925BE9FB01AFC6FB4D3E7D4990010F813408AB106C4F09CB7EE07868CC136FFF3357F624A21BED52);
    ("yG", VInt 0x63BA3A7A27483EBF6671DBEF7ABB30EBEE084E58A0B077AD42A5A0989D1EE71B1B9BC0455FB0D2C3);
    ("n", VInt 0xD35E472036BC4FB7E13C785ED201E065F98FCFA5B68F12A32D482EC7EE8658E98691555B44C59311);
    ("h", VInt 1);
    ("z", VInt 0x15F75CAF668077F7E85B42EB01F0A81FF56ECD6191D55CB82B7D861458A18FEFC3E5AB7496F3C7B1)].

(** ecc/curves.py:589-602 *)
Definition cls_BrainPoolP384r1 : curve_class :=
  CurveClass "BrainPoolP384r1" "SmallWeierstrassCurveFp" [
    ("curveId", VStr "brainpoolP384r1");
    ("strength", VInt 192);
    ("oid", VTuple [1; 3; 36; 3; 2; 8; 1; 1; 11]);
    ("p", VInt 0x8CB91E82A3386D280F5D6F7E50E641DF152F7109ED5456B412B1DA197FB71123ACD3A729901D1A71874700133107EC53);
    ("a", VInt 0x7BC382C63D8C150C3C72080ACE05AFA0C2BEA28E4FB22787139165EFBA91F90F8AA5814A503AD4EB04A8C7DD22CE2826);
    ("b", VInt 0x04A8C7DD22CE28268B39B55416F0447C2FB77DE107DCD2A62E880EA53EEB62D57CB4390295DBC9943AB78696FA504C11);
    ("xG", VInt 0x1D1C64F068CF45FFA2A63A81B7C13F6B8847A3E77EF14FE3DB7FCAFE0CBD10E8E826E03436D646AAEF87B2E247D4AF1E);
    ("yG", VInt 0x8ABE1D7520F9C2A45CB1EB8E95CFD55262B70B29FEEC5864E19C054FF99129280E4646217791811142820341263C5315);
    ("n", VInt 0x8CB91E82A3386D280F5D6F7E50E641DF152F7109ED5456B31F166E6CAC0425A7CF3AB6AF6B7FC3103B883202E9046565);
    ("h", VInt 1);
    ("seed_p", VInt 0x5F12C7F9924A19947B3916CF70801F2E2858EFC1);
    ("seed_ab", VInt 0xBCFBFA1C877C56284DAB79CD4C2B3293D20E9E5E)].

(** ecc/curves.py:605-617 *)
Definition cls_BrainPoolP384t1 : curve_class :=
  let p := 0x8CB91E82A3386D280F5D6F7E50E641DF152F7109ED5456B412B1DA197FB71123ACD3A729901D1A71874700133107EC53 in
  CurveClass "BrainPoolP384t1" "SmallWeierstrassCurveFp" [
    ("curveId", VStr "brainpoolP384t1");
    ("strength", VInt 192);
    ("oid", VTuple [1; 3; 36; 3; 2; 8; 1; 1; 12]);
    ("p", VInt p);
    ("a", VInt (p - 3));
    ("b", VInt 0x7F519EADA7BDA81BD826DBA647910F8C4B9346ED8CCDC64E4B1ABD11756DCE1D2074AA263B88805CED70355A33B471EE);
    ("xG", VInt 0x18DE98B02DB9A306F2AFCD7235F72A819B80AB12EBD653172476FECD462AABFFC4FF191B946A5F54D8D0AA2F418808CC);
    ("yG", VInt 0x25AB056962D30651A114AFD2755AD336747F93475B7A1FCA3B88F2B6A208CCFE469408584DC2B2912675BF5B9E582928);
    ("n", VInt 0x8CB91E82A3386D280F5D6F7E50E641DF152F7109ED5456B31F166E6CAC0425A7CF3AB6AF6B7FC3103B883202E9046565);
    ("h", VInt 1);
    ("z", VInt 0x41DFE8DD399331F7166A66076734A89CD0D2BCDB7D068E44E1F378F41ECBAE97D2D63DBC87BCCDDCCC5DA39E8589291C)].

(** ecc/curves.py:620-633 *)
Definition cls_BrainPoolP512r1 : curve_class :=
  CurveClass "BrainPoolP512r1" "SmallWeierstrassCurveFp" [
    ("curveId", VStr "brainpoolP512r1");
    ("strength", VInt 256);
    ("oid", VTuple [1; 3; 36; 3; 2; 8; 1; 1; 13]);
    ("p", VInt 0xAADD9DB8DBE9C48B3FD4E6AE33C9FC07CB308DB3B3C9D20ED6639CCA703308717D4D9B009BC66842AECDA12AE6A380E62881FF2F2D82C68528AA6056583A48F3);
    ("a", VInt 0x7830A3318B603B89E2327145AC234CC594CBDD8D3DF91610A83441CAEA9863BC2DED5D5AA8253AA10A2EF1C98B9AC8B57F1117A72BF2C7B9E7C1AC4D77FC94CA);
    ("b", VInt 0x3DF91610A83441CAEA9863BC2DED5D5AA8253AA10A2EF1C98B9AC8B57F1117A72BF2C7B9E7C1AC4D77FC94CADC083E67984050B75EBAE5DD2809BD638016F723);
    ("xG", VInt 0x81AEE4BDD82ED9645A21322E9C4C6A9385ED9F70B5D916C1B43B62EEF4D0098EFF3B1F78E2D0D48D50D1687B93B97D5F7C6D5047406A5E688B352209BCB9F822);
    ("yG", VInt 0x7DDE385D566332ECC0EABFA9CF7822FDF209F70024A57B1AA000C55B881F8111B2DCDE494A5F485E5BCA4BD88A2763AED1CA2B2FA8F0540678CD1E0F3AD80892);
    ("n", VInt 0xAADD9DB8DBE9C48B3FD4E6AE33C9FC07CB308DB3B3C9D20ED6639CCA70330870553E5C414CA92619418661197FAC10471DB1D381085DDADDB58796829CA90069);
    ("h", VInt 1);
    ("seed_p", VInt 0x6636920D871574E69A458FEA3F4933D7E0D95748);
    ("seed_ab", VInt 0xAF02AC60ACC93ED874422A52ECB238FEEE5AB6AD)].

(** ecc/curves.py:635-647 *)
Definition cls_BrainPoolP512t1 : curve_class :=
  let p := 0xAADD9DB8DBE9C48B3FD4E6AE33C9FC07CB308DB3B3C9D20ED6639CCA703308717D4D9B009BC66842AECDA12AE6A380E62881FF2F2D82C68528AA6056583A48F3 in
  CurveClass "BrainPoolP512t1" "SmallWeierstrassCurveFp" [
    ("curveId", VStr "brainpoolP512t1");
    ("strength", VInt 256);
    ("oid", VTuple [1; 3; 36; 3; 2; 8; 1; 1; 14]);
    ("p", VInt p);
    ("a", VInt (p - 3));
    ("b", VInt 0x7CBBBCF9441CFAB76E1890E46884EAE321F70C0BCB4981527897504BEC3E36A62BCDFA2304976540F6450085F2DAE145C22553B465763689180EA2571867423E);
    ("xG", VInt 0x640ECE5C12788717B9C1BA06CBC2A6FEBA85842458C56DDE9DB1758D39C0313D82BA51735CDB3EA499AA77A7D6943A64F7A3F25FE26F06B51BAA2696FA9035DA);
    ("yG", VInt 0x5B534BD595F5AF0FA2C892376C84ACE1BB4E3019B71634C01131159CAE03CEE9D9932184BEEF216BD71DF2DADF86A627306ECFF96DBB8BACE198B61E00F8B332);
    ("n", VInt 0xAADD9DB8DBE9C48B3FD4E6AE33C9FC07CB308DB3B3C9D20ED6639CCA70330870553E5C414CA92619418661197FAC10471DB1D381085DDADDB58796829CA90069);
    ("h", VInt 1);
    ("z", VInt 0x12EE58E6764838B69782136F0F2D3BA06E27695716054092E60A80BEDB212B64E585D90BCE13761F85C3F1D2A64E3BE8FEA2220F01EBA5EEB0F35DBD29D922AB)].

(** ecc/curves.py:652-662 *)
Definition cls_Curve25519 : curve_class :=
  CurveClass "Curve25519" "MontgomeryCurveFp" [
    ("curveId", VStr "curve25519");
    ("strength", VInt 126);
    ("oid", VNone);
    ("p", VInt (2 ^ 255 - 19));
    ("a", VInt 486662);
    ("xG", VInt 9);
    ("yG", VInt 0x20ae19a1b8a086b4e01edd2c7748d14c923d4d7e6d7c61b229e9c5a27eced3d9);
    ("n", VInt (2 ^ 252 + 27742317777372353535851937790883648493));
    ("h", VInt 8)].

(** ecc/curves.py:665-676 *)
Definition cls_Ed25519 : curve_class :=
  CurveClass "Ed25519" "EdwardsCurveFp" [
    ("curveId", VStr "Ed25519");
    ("strength", VInt 126);
    ("oid", VNone);
    ("p", VInt (2 ^ 255 - 19));
    ("d", VInt 1);
    ("xG", VInt 9);
    ("yG", VInt 14781619447589544791020593568409986887264606134616475288964881837755586237401);
    ("yG", VInt 0x20ae19a1b8a086b4e01edd2c7748d14c923d4d7e6d7c61b229e9c5a27eced3d9);
    ("n", VInt (2 ^ 252 + 27742317777372353535851937790883648493));
    ("h", VInt 8)].

(** ecc/curves.py:679-689 *)
Definition cls_E382 : curve_class :=
  CurveClass "E382" "EdwardsCurveFp" [
    ("curveId", VStr "e382");
    ("strength", VInt 190);
    ("oid", VNone);
    ("p", VInt (2 ^ 382 - 105));
    ("d", VInt (-67254));
    ("xG", VInt 3914921414754292646847594472454013487047137431784830634731377862923477302047857640522480241298429278603678181725699);
    ("yG", VInt 17);
    ("n", VInt (2 ^ 380 - 1030303207694556153926491950732314247062623204330168346855));
    ("h", VInt 4)].

(** ecc/curves.py:692-701 *)
Definition cls_M383 : curve_class :=
  CurveClass "M383" "MontgomeryCurveFp" [
    ("curveId", VStr "m383");
    ("strength", VInt 190);
    ("p", VInt (2 ^ 383 - 187));
    ("a", VInt 2065150);
    ("xG", VInt 0xc);
    ("yG", VInt 0x1ec7ed04aaf834af310e304b2da0f328e7c165f0e8988abd3992861290f617aa1f1b2e7d0b6e332e969991b62555e77e);
    ("n", VInt (2 ^ 380 + 166236275931373516105219794935542153308039234455761613271));
    ("h", VInt 8)].

(** ecc/curves.py:704-713 *)
Definition cls_Curve3617 : curve_class :=
  CurveClass "Curve3617" "EdwardsCurveFp" [
    ("curveId", VStr "curve3617");
    ("strength", VInt 205);
    ("oid", VNone);
    ("p", VInt (2 ^ 414 - 17));
    ("d", VInt 3617);
    ("xG", VInt 0x1a334905141443300218c0631c326e5fcd46369f44c03ec7f57ff35498a4ab4d6d6ba111301a73faa8537c64c4fd3812f3cbc595);
    ("yG", VInt 0x22);
    ("n", VInt (2 ^ 411 - 33364140863755142520810177694098385178984727200411208589594759));
    ("h", VInt 8)].

(** ecc/curves.py:716-724 *)
Definition cls_M511 : curve_class :=
  CurveClass "M511" "MontgomeryCurveFp" [
    ("curveId", VStr "m511");
    ("strength", VInt 254);
    ("oid", VNone);
    ("p", VInt (2 ^ 511 - 187));
    ("xG", VInt 5);
    ("yG", VInt 2500410645565072423368981149139213252211568685173608590070979264248275228603899706950518127817176591878667784247582124505430745177116625808811349787373477);
    ("n", VInt (2 ^ 508 + 10724754759635747624044531514068121842070756627434833028965540808827675062043));
    ("h", VInt 8)].

(** ecc/curves.py:727-737 *)
Definition cls_E521 : curve_class :=
  CurveClass "E521" "EdwardsCurveFp" [
    ("curveId", VStr "e521");
    ("strength", VInt 259);
    ("oid", VNone);
    ("p", VInt (2 ^ 521 - 1));
    ("d", VInt (-376014));
    ("xG", VInt 1571054894184995387535939749894317568645297350402905821437625181152304994381188529632591196067604100772673927915114267193389905003276673749012051148356041324);
    ("yG", VInt 12);
    ("n", VInt (2 ^ 519 - 337554763258501705789107630418782636071904961214051226618635150085779108655765));
    ("h", VInt 4)].

(** The classes of the module, in the order of the file. *)
Definition module_classes : list curve_class :=
  [cls_SECP_192r1;
   cls_NIST_P192;
   cls_SECP_224r1;
   cls_NIST_P224;
   cls_SECP_256k1;
   cls_SECP_256r1;
   cls_NIST_P256;
   cls_WAPI;
   cls_SWP256CCAO01;
   cls_SWP256SM2;
   cls_GOST2001_test;
   cls_GOST2001_CryptoPro_A;
   cls_GOST2001_CryptoPro_B;
   cls_GOST2001_CryptoPro_C;
   cls_GOST2012_test;
   cls_GOST2012_tc26_A;
   cls_GOST2012_tc26_B;
   cls_GOSTmsg05975te;
   cls_GOSTmsg05975sw;
   cls_FRP256v1;
   cls_SECP_384r1;
   cls_NIST_P384;
   cls_SECP_521r1;
   cls_NIST_P521;
   cls_BrainPoolP160r1;
   cls_BrainPoolP160t1;
   cls_BrainPoolP192r1;
   cls_BrainPoolP192t1;
   cls_BrainPoolP224r1;
   cls_BrainPoolP224t1;
   cls_BrainPoolP256r1;
   cls_BrainPoolP256t1;
   cls_BrainPoolP320r1;
   cls_BrainPoolP320t1;
   cls_BrainPoolP384r1;
   cls_BrainPoolP384t1;
   cls_BrainPoolP512r1;
   cls_BrainPoolP512t1;
   cls_Curve25519;
   cls_Ed25519;
   cls_E382;
   cls_M383;
   cls_Curve3617;
   cls_M511;
   cls_E521].

(** The last assignment to an attribute in a class body wins. *)
Fixpoint body_attr (l : list (string * attr_value)) (a : string) : option attr_value :=
  match l with
  | [] => None
  | (b, v) :: r => match body_attr r a with Some w => Some w | None => if String.eqb a b then Some v else None end
  end.
(** Attributes of the base classes: KoblitzCurveFp.a, ecc/ecc.py:133, and EdwardsCurveFp.a, ecc/ecc.py:193. *)
Definition base_attr (base a : string) : option attr_value :=
  if String.eqb a "a" then
    if String.eqb base "KoblitzCurveFp" then Some (VInt 0)
    else if String.eqb base "EdwardsCurveFp" then Some (VInt 1) else None
  else None.
(** Attribute lookup: the class, then its base, which is a class of the module or of ecc.py.
    The fuel is the depth of the inheritance. *)
Fixpoint class_attr (fuel : nat) (c : curve_class) (a : string) : option attr_value :=
  match body_attr (cls_attrs c) a with
  | Some v => Some v
  | None =>
      match find (fun d => String.eqb (cls_name d) (cls_base c)) module_classes, fuel with
      | Some d, S f => class_attr f d a
      | _, _ => base_attr (cls_base c) a
      end
  end.
Definition get_attr (c : curve_class) (a : string) : res attr_value :=
  match class_attr 2 c a with Some v => Ok v | None => Raise AttributeError end.
Definition int_attr (c : curve_class) (a : string) : res Z :=
  do v <- get_attr c a; match v with VInt n => Ok n | _ => Raise TypeError end.
Definition curve_id (c : curve_class) : res string :=
  do v <- get_attr c "curveId"; match v with VStr s => Ok s | _ => Raise TypeError end.

(** get_all_classes, ecc/curves.py:742-746: inspect.getmembers sorts by name. *)
Fixpoint str_leb (s t : string) : bool :=
  match s, t with
  | EmptyString, _ => true
  | String _ _, EmptyString => false
  | String a s', String b t' =>
      if (Ascii.N_of_ascii a <? Ascii.N_of_ascii b)%N then true
      else if (Ascii.N_of_ascii b <? Ascii.N_of_ascii a)%N then false else str_leb s' t'
  end.
Fixpoint insert_class (c : curve_class) (l : list curve_class) : list curve_class :=
  match l with
  | [] => [c]
  | d :: r => if str_leb (cls_name c) (cls_name d) then c :: l else d :: insert_class c r
  end.
Definition get_all_classes : list curve_class := fold_right insert_class [] module_classes.
(** The lists by the name of the first base class, ecc/curves.py:748-766 *)
Definition classes_with_base (b : string) : list curve_class :=
  filter (fun c => String.eqb (cls_base c) b) get_all_classes.
Definition smallWeierstrassCurves := classes_with_base "SmallWeierstrassCurveFp".
Definition koblitzCurves := classes_with_base "KoblitzCurveFp".
Definition twistedEdwardsCurves := classes_with_base "TwistedEdwardsCurveFp".
Definition edwardsCurves := classes_with_base "EdwardsCurveFp".
Definition montgomeryCurves := classes_with_base "MontgomeryCurveFp".
(** ecc/curves.py:768 *)
Definition allCurves : list curve_class :=
  (smallWeierstrassCurves ++ koblitzCurves ++ twistedEdwardsCurves ++ edwardsCurves ++ montgomeryCurves)%list.

(** The parameters used by the methods of SmallWeierstrassCurveFp *)
Definition class_curve (c : curve_class) : res curve :=
  do p <- int_attr c "p"; do a <- int_attr c "a"; do b <- int_attr c "b"; do n <- int_attr c "n";
  Ok (Curve p a b n).
(** EllipticCurve.generator, ecc/ellipticcurve.py:32-34 *)
Definition generator (c : curve_class) : res point :=
  do E <- class_curve c; do x <- int_attr c "xG"; do y <- int_attr c "yG"; mk_point E x y.
