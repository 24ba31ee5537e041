(** Certificates for the embedding degrees.  Generated by tools/gen_degree.py. *)
From Coq Require Import ZArith List.
Import ListNotations.
Local Open Scope Z_scope.

(** limbs, R^2 modulo the order q, the inverse of the product of p^i - 1 *)
Definition degree_certs : list (nat * Z * Z) := [
  (7%nat, 0xa0581a24696ea5bcb7b84290e68161a62d38a4a5e38f80e2, 0x2b88a2532b91ea2382520ce60273d5d511000c97337c2d7f);
  (8%nat, 0x1822bc47b1e979616ad15f7cd971325646db12a30fa9d6571218c4ad, 0x5b503137553d6895737c879c91ad6b080b641e68905944fa37b33000);
  (9%nat, 0x581c69bc5e697f5e45bcd07c73c1a618ae5f03161103606ed243a8c37c6a0df3, 0xb12db5d0e95b92b5725adb18a0acd59edc91ac00efd3b2ab54de877259211b);
  (9%nat, 0x55aba83afc16484a92b6bec59619076a9ea8ca2ae130785e017644694887ac57, 0xcbe896d99fa7db926aec00879d7cba9f5a9adb39c92c5612dd2106801465bcfa);
  (7%nat, 0xc98e03eb2cd3349eeb3340db9852ddd880a757fc320b041, 0xa0e6f68fd5810f276042731e5c06e8b616be66ec5eb25958);
  (9%nat, 0x601a0f025ae63b3ef66ff8093fa3970d2225899d0ddcf2b50e7dc6f44f4e1e77, 0xc86bb869fb2542f0df4d334c8a1d5e8557e76c3265c6b6ac7bb4cbb7315e185);
  (9%nat, 0x2c0e1214b620fc84c3affe0d4456cbddcc6822c975ba46eea3bacf5a14ce9c1d, 0x382eba7ded7fcb99a6ce79fefb5ade6e41dd1d202a5f8e8d9d8a1ee7c67eefea);
  (9%nat, 0x3503b112ac0db8b05c83ad169282432704e128ea939d14726af760fbb159620f, 0x1d02e4fc3f31fe127e5f7361418c20a4cdd3fa0b05ad0c9b039d5034aee2a8a5);
  (9%nat, 0xb451179dbf74885d08a3714c72c1e24b62d2653e7884f9012aeb8de195ceac6c, 0xab2afbecb1ffab9e90512219b8dee7f4d5d8b62f5722374449869509436deeaf);
  (9%nat, 0x4e50824664a2e7e2f6882cf100f3b0c25b3f64015b284bfd616210393d56d0d8, 0xf1005b817b328ee2fe06a36a8d5f56342fc7a5ecc435616810c3edf67678b02);
  (9%nat, 0x9a5fd455a83ad846ed5f2802fbcb84e783b44280e0c61d22686bc70abf903d5, 0x31217114b0e08098dac5b22bcab6a491bd9f2d189fb285e0afd2d9115b09e07a);
  (18%nat, 0xeafb2c6cd9f71a68e00e08f19a67a681ff45b5a573b25e841fa4e791a70b5d3cf7f262c12b4c3507f1e0b29eab3f0c717afe8542a5acba305f495d719bd6754, 0x30beb25ff4b3e35e14e6dddb9c8824eaddcbc84dc7af0011605882e5e5cf929266b0e92b1da7c657d9e44b0574e845d6fe428c2c577239781a69c6d88f91546e);
  (18%nat, 0xc3ee028bf9d8ed3314bab8be5dd7b1651dc7433579e38295703a67c5dfad05981bdf946304ffad3e3448dcfe8219e2d6f094aea4f51c8651f82b695e49326b32, 0x946b81327fc7c500c2c473b112cd9a7a2daf89feeeae640487c163f1a01f2166e9a789374e7c16e3245d8d5134f49e7e04b8b800b427bad7ed43b60381de02ef);
  (18%nat, 0x40f96232d7a52b18fe9f96043308eeb401c385980eb887a3f95a58969402280babab7192c6b7d0e2ab33967a542163441db60449830b8e305ca3fb965d53430b, 0x6a49d386128c18131da83632839a010fdf6ad8cf712445bf06a9fee912927012b2361ad3113a75ee964e887bcf5fed8eccb50b572330c517992ed146969d23fa);
  (18%nat, 0x3e8910352f3bea2192314e0a57f445b20e04f77045db49adc984ef255e03143367c78eaecd6ec258242763861aaafcb53b262cf6c1c4d95d2300ab894911850a, 0x5a23160f7af4b68e276f6b1dbbf4cfe62eef5911a163cc8898ad1700de8f41501a1a77fcb6a90800717f8a0776edd297423c842e6182864091c7f285c0277cf);
  (9%nat, 0x5f0c07bdbfde2fae4bdeea33be21392f152c1725c4d99218e7cb4f145e7b39aa, 0xd60009639886fd51381d5431fa251430cd485718d17eee10677eed9f073b3754);
  (14%nat, 0xb05b7a28266895d40d49174aab1cc5bf030606de609f43cc6f020486f7f4f8c925636a94b3a299988526e3aca955f9b3, 0xfc984ba4b0461c013691047b7e86f2a7dcdb8f9a1d23534c4bd688c44d925f6a849b9099622f189cb2d9032582f8d6f9);
  (18%nat, 0x1a39a5b5a3afe8c44383d2d8e03d1492d0d455bcc6d61a8e567bccff3d142b7756996de87fe01e919f4c8b2dae364b67238dcd79ef9fe9c0b2be91797914ef0cff8, 0x1fa6d38fc26da24b68ff9990b5dd79f1f90b9607c2ed37102f2cacea0c7c23eda403bb07416d3c5c630d1eb3cf15a4b9f091dbd4ac2694846dcb833904aeb0b9927);
  (6%nat, 0x574124a94e6e5cf8f2ca70afb9614561542df80c, 0x51f2ea8f8f6f84dcb8b5a2c6025e571043f1b07d);
  (6%nat, 0x574124a94e6e5cf8f2ca70afb9614561542df80c, 0x51f2ea8f8f6f84dcb8b5a2c6025e571043f1b07d);
  (7%nat, 0x1ee9813b771ffa9e9da8f2139864e1841d1ced0a73f95500, 0x1ce48591d542c754b8ed62bb4673ac398637392b567694);
  (7%nat, 0x1ee9813b771ffa9e9da8f2139864e1841d1ced0a73f95500, 0x1ce48591d542c754b8ed62bb4673ac398637392b567694);
  (8%nat, 0xbfee0d77784b8feda7a3060a058257ad4c85348aeca00c7ec9baae83, 0x6ac22b3c0fdffa210e66b0a852368bd718bb8364dc2cb728b42a78bc);
  (8%nat, 0xbfee0d77784b8feda7a3060a058257ad4c85348aeca00c7ec9baae83, 0x6ac22b3c0fdffa210e66b0a852368bd718bb8364dc2cb728b42a78bc);
  (9%nat, 0x5794cade3c136a67d4ed12034a9cc3963a292cf61a41aa299a831ab5552029a0, 0x77282edde589de591dd15ef5a2bdd0d4deaabadf6fcf98995d0e14c3a5063c37);
  (9%nat, 0x5794cade3c136a67d4ed12034a9cc3963a292cf61a41aa299a831ab5552029a0, 0x77282edde589de591dd15ef5a2bdd0d4deaabadf6fcf98995d0e14c3a5063c37);
  (12%nat, 0x3af8bd24c5452195ab874c338d184470891918c787dc942e5e110fe8e8287f833f0471e5dec62c85, 0x9c232c32e103d46d5bd7c9a387d30a78538649798535c80ec30a696ced448c399994aceded8868c4);
  (12%nat, 0x3af8bd24c5452195ab874c338d184470891918c787dc942e5e110fe8e8287f833f0471e5dec62c85, 0x9c232c32e103d46d5bd7c9a387d30a78538649798535c80ec30a696ced448c399994aceded8868c4);
  (14%nat, 0x56da70dfb187f9f9b06203695abe28143f883f5b6a2124f61943b78985c312f5c8856c1f27d00f28c68392b2d564ba4a, 0x31f812e0b507a00c35f6ff85fc4608d4a4eac1e524b70ec221b48422df7a315b6566dfeccefe2a37056e86dd81840b96);
  (14%nat, 0x56da70dfb187f9f9b06203695abe28143f883f5b6a2124f61943b78985c312f5c8856c1f27d00f28c68392b2d564ba4a, 0x31f812e0b507a00c35f6ff85fc4608d4a4eac1e524b70ec221b48422df7a315b6566dfeccefe2a37056e86dd81840b96);
  (18%nat, 0x42fa4b583b7dd11d27e778e3177b35a5065c337ab9ab1b03ce92ebb4de4a1fafb64ddc70e5eaf24d28011baaaec99739746c7ac28f1302ec18ddb2bb71dcba84, 0x3145d5a1167a604045bcbbb0bbfaeb2b139d40d393c8fba2c162636d66692a36c1c9e0e6c79ff55f4aeafa50ccc70a7bd40c9f910e212f786b1e7c7f54e276e7);
  (18%nat, 0x42fa4b583b7dd11d27e778e3177b35a5065c337ab9ab1b03ce92ebb4de4a1fafb64ddc70e5eaf24d28011baaaec99739746c7ac28f1302ec18ddb2bb71dcba84, 0x3145d5a1167a604045bcbbb0bbfaeb2b139d40d393c8fba2c162636d66692a36c1c9e0e6c79ff55f4aeafa50ccc70a7bd40c9f910e212f786b1e7c7f54e276e7)].
