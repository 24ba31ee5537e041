(** Certificates for the parameters of the Brainpool curves.  Generated by tools/gen_brainpool.py. *)
From Coq Require Import ZArith List.
Import ListNotations.
Local Open Scope Z_scope.

(** a factor, or the inverse of 2^(q-1) - 1 modulo q with the number of limbs and R^2 *)
Inductive cert := Fac (r : Z) | Fer (k : nat) (r2 w : Z).
(** certs of the numbers below the prime; root and quotient for the squares between a and b;
    root of -b and quotient; z with a z^4 = -3, then quotients and remainders *)
Record bcert := { b_certs : list cert; b_squares : list (Z * Z); b_root : Z; b_quot : Z; b_fourth : Z * Z * Z * Z * Z * Z }.
Definition bcerts : list bcert := [
  {| b_certs := [Fac 14551;
       Fac 7;
       Fac 3;
       Fac 5;
       Fac 11;
       Fac 3;
       Fac 83;
       Fac 43;
       Fac 3;
       Fac 13;
       Fac 3511;
       Fac 3;
       Fac 1811;
       Fac 5;
       Fac 3;
       Fac 7;
       Fac 533012531;
       Fac 3;
       Fac 5;
       Fac 2447;
       Fac 3;
       Fac 307;
       Fac 7;
       Fac 3];
     b_squares := [(0x5213b2be6a324ecc8e4a1f8711fe9ec19eda63c9, 0x1cddee94dbda4bb620801367579835779f958449); (0xc982926e9b287ed01744eefe8df71e4b40108d84, 0xae003b3a470e6eba02ea7f1e708d275694a3c00a)];
     b_root := 0x1050fbf388240cab27adbf3e0d7494c97948c71e; b_quot := 0x1240a7d74b02f1f9624ba065b743435eabfc864;
     b_fourth := (0x24dbff5dec9b986bbfe5295a29bfbae45e0f5d0b, 0x5d25e6d839aa5d827bb653ee5fd3ff7af432c0a, 0x5f645baf56b70a3b1b8fad823cc1425ab27d95e3, 0x26fe1b338aff5eb060befb5fb08eff3448bd977b, 0x7bf584bcab511c6da4769ac2d2b902e588401114, 0x1ba6aca771d78d276dc703fcb61cb9d356a3eacd) |};
  {| b_certs := [Fac 3;
       Fac 5;
       Fac 109;
       Fac 3;
       Fac 479;
       Fac 13;
       Fac 3;
       Fac 7;
       Fac 463;
       Fac 3;
       Fac 17;
       Fac 5;
       Fac 3;
       Fac 337;
       Fac 7;
       Fac 3;
       Fac 5;
       Fac 23;
       Fac 3;
       Fac 65633;
       Fer 7 0x98b77a0dd974c414383b0f7646ea4b6baa6beb3d737cd9f2 0x3c154413d271eb8b3f1e783fcc3daf38d079cb74751ec9f5;
       Fac 3;
       Fac 29;
       Fac 10861;
       Fac 3;
       Fac 11;
       Fac 5;
       Fac 3;
       Fac 7;
       Fac 280139;
       Fac 3;
       Fac 5;
       Fer 7 0x7d12e4725984bc5271fd794fce945117fb13e17d746de4ae 0x9fc6abc7c8843a5a92e1da0bd15a84c3752a3bbb606197ef;
       Fac 3;
       Fac 41;
       Fac 7;
       Fac 3;
       Fac 613;
       Fac 683;
       Fac 3;
       Fac 23;
       Fac 5;
       Fac 3;
       Fac 1231;
       Fac 13;
       Fac 3;
       Fac 5;
       Fac 11;
       Fac 3;
       Fac 7;
       Fer 7 0x539c0409199cb0afc8a118161a13599a74137571975ddcd8 0x516fa185c7c4b5f5e2cfd650fb0d02f481af5f483ecb891b;
       Fac 3;
       Fac 347;
       Fac 43;
       Fac 3;
       Fer 7 0x7167453c89545da7e265775e1545765106bcce93710de50 0xb8d3f42033121e1fd8d2f54ac0e68eb84c0caaabbacb591;
       Fac 5;
       Fac 3;
       Fac 11;
       Fac 113;
       Fac 3;
       Fac 5;
       Fac 73;
       Fac 3;
       Fac 31934389;
       Fac 373;
       Fac 3;
       Fac 31;
       Fac 19;
       Fac 3;
       Fac 7;
       Fac 5;
       Fac 3;
       Fac 254537;
       Fac 6269707;
       Fac 3;
       Fac 5;
       Fac 7;
       Fac 3];
     b_squares := [];
     b_root := 0x63422efd8d5692c19be4ca6073366aedf164102423430cc; b_quot := 0x32857a66ddee093a0bca0b30111387e182104e37913a8f;
     b_fourth := (0xa7939754b7dc6f1e8e5dbb93dbc3cb8e316f8daa6e875dcc, 0x90004dbbeb557fba9c05de3b3662db24f3b79e55177e4c25, 0x9b5453f7b83731569f035fe602706eb6d1a8d560ad98c6bd, 0x7bb8d759504cef75d7c779026ec03a43c472c77140dc21f2, 0x70966c0c451ade801a75ad3b5c972d0ceed1cc908d123dcb, 0x3d86699c5b5fb8febdbfce3198019f091048ae2c4f9b54b8) |};
  {| b_certs := [Fac 5;
       Fac 31;
       Fac 3;
       Fac 97;
       Fac 7;
       Fac 3;
       Fac 61;
       Fac 11;
       Fac 3;
       Fac 1987282487;
       Fac 5;
       Fac 3;
       Fac 131;
       Fac 17;
       Fac 3;
       Fac 5;
       Fac 4021;
       Fac 3;
       Fac 7;
       Fac 191530799;
       Fac 3;
       Fac 140197;
       Fac 4889;
       Fac 3;
       Fac 127;
       Fac 5;
       Fac 3;
       Fer 8 0x84e070371a0f0b9ac5b751476eb04d9c4504e22dd557dd4b22362d59 0x89a9a686558e3be590ed3e75bc220d82eca8c173b001e2179295dffc;
       Fac 41;
       Fac 3;
       Fac 5;
       Fac 2447;
       Fac 3;
       Fac 10139;
       Fac 1231;
       Fac 3;
       Fac 53;
       Fac 23;
       Fac 3;
       Fac 7;
       Fac 5;
       Fac 3;
       Fac 39989;
       Fac 13;
       Fac 3;
       Fac 5;
       Fac 7;
       Fac 3;
       Fac 449;
       Fac 29;
       Fac 3;
       Fac 11;
       Fac 35491;
       Fac 3];
     b_squares := [(0x331e39d9a819da5f087b67324fddc4bb6b82cb0db36a3f0dd2db363c, 0xc1c7a3bf217e5403930632ac6fdf455df5770224e40b5b4ab893c4f); (0x4d2097362a86f7a00f287cc91fc17124f4fe60d739ff82f2f204656c, 0x1b923bc40c3a6e0d0e94213186607e452e2552d898f03ee051d783a8)];
     b_root := 0x2c35d7eceb30ea5cef8249b2f61f930bdfbfac543b4076e02070f30f; b_quot := 0x90f240b0f7b4266de80f751322b3eb37e2112290e79109b1c765914;
     b_fourth := (0xa9cec2c8e21bc33f990b38828f022fd3bc1a2194caf8c13e4de635c0, 0x85a53e087d6a7fe68ebe86773856e1ab280948d8e4b54826527e2bf5, 0x138c20c685de0a8b241388e73f69176bf903e14ea91f7da1663b86f5, 0x1c55fbbffa12d3a4107e5bafc6f52dfbfadab1e24ed2ccdd768a1d8, 0x1900c1f845810ec5cb3acbf7d3c3bbfdd777892eb07537d5ecb83051, 0xc20934ecfb988c50ec13d2c3a8218bea74a10feae5e3f899fd455ca) |};
  {| b_certs := [Fac 1069;
       Fac 313;
       Fac 3;
       Fac 43;
       Fac 5;
       Fac 3;
       Fac 17;
       Fac 11;
       Fac 3;
       Fac 5;
       Fer 9 0x56acbea890f81678de490b63a56aa67007bbc84376e96dca9f318c36ca42a8dd 0x10479e36e3ae6a9035d653c771467de51f995826bbf415434b651de795398fda;
       Fac 3;
       Fac 13;
       Fac 31;
       Fac 3;
       Fac 2521;
       Fac 7;
       Fac 3;
       Fac 11;
       Fac 5;
       Fac 3;
       Fac 82981;
       Fac 139;
       Fac 3;
       Fac 5;
       Fac 13;
       Fac 3;
       Fac 23;
       Fac 71;
       Fac 3;
       Fac 7;
       Fac 59;
       Fac 3;
       Fac 24149261;
       Fac 5;
       Fac 3;
       Fac 61;
       Fac 7;
       Fac 3;
       Fac 5;
       Fac 11;
       Fac 3;
       Fac 41887;
       Fac 601;
       Fac 3;
       Fac 19;
       Fac 43;
       Fac 3;
       Fac 433;
       Fac 5;
       Fac 3;
       Fac 7;
       Fer 9 0x593786ebfbeeaacbc0378beabd1abda0049100a051c10ddd703dbd69fd9d7c13 0x6c1860384e880a1b1893b6c898437820105dff11e16ee46bf0f28a53811302e6;
       Fac 3;
       Fac 5;
       Fac 41;
       Fac 3;
       Fac 17;
       Fac 7;
       Fac 3;
       Fac 89;
       Fac 647;
       Fac 3;
       Fer 9 0x825ac4198dbd67c522a097b6a5c39c3ba4141322b1a114c7594ba3aec55f29d7 0x3aff3145f06365ce085fab5449bd1ef3a334c7d4d5f35a016d0dd04863e24510;
       Fac 5;
       Fac 3;
       Fac 181;
       Fac 359;
       Fac 3;
       Fac 5;
       Fac 619;
       Fac 3;
       Fac 7;
       Fac 11;
       Fac 3;
       Fac 31;
       Fac 516998117059;
       Fac 3;
       Fac 3727;
       Fac 5;
       Fac 3;
       Fac 79;
       Fac 1997938037;
       Fac 3;
       Fac 5;
       Fac 11005782223171;
       Fac 3;
       Fac 131;
       Fer 9 0x73add169b7e41d9b6637202a0c7b536bc874e662be119baa2801e631e8523490 0x678f04a23a44c4701a09ec135715142dc42bf29c24d5403a3c043a11f9a864f7;
       Fac 3;
       Fac 13;
       Fac 17;
       Fac 3;
       Fac 7;
       Fac 5;
       Fac 3;
       Fac 23;
       Fac 61;
       Fac 3;
       Fac 5;
       Fac 7;
       Fac 3;
       Fac 19;
       Fac 13;
       Fac 3;
       Fac 6299;
       Fac 11;
       Fac 3;
       Fac 17;
       Fac 5;
       Fac 3;
       Fac 44004028699;
       Fer 9 0x13ffc88073e8a3a855f2d1492db958fcac3a30cc782de4c28d2288bb439a1dd4 0x10929e10d04c6a3bd14992ca0d9bbbc8e701913b70aa7bed33518bbf54ce454a;
       Fac 3;
       Fac 5;
       Fac 8763679;
       Fac 3;
       Fac 11;
       Fac 212881;
       Fac 3;
       Fac 15574283;
       Fac 7;
       Fac 3;
       Fac 163;
       Fac 5;
       Fac 3;
       Fac 10888597;
       Fac 3851;
       Fac 3;
       Fac 5;
       Fac 87345060437;
       Fac 3;
       Fac 29;
       Fac 14423;
       Fac 3;
       Fac 7;
       Fac 11535089;
       Fac 3;
       Fac 918583;
       Fac 5;
       Fac 3;
       Fac 2938451;
       Fac 7;
       Fac 3;
       Fac 5;
       Fac 223;
       Fac 3;
       Fac 2731381];
     b_squares := [];
     b_root := 0x4c3d5cc75c63bbb7b70e9a69de692418e98f80576e0f95b473d2ce7facf44844; b_quot := 0x2231dd6a8d9b2bd8ec49fb0c15cdc96858631f8b89fe77adfe31c9d7ea8429ea;
     b_fourth := (0x3e2d4bd9597b58639ae7aa669cab9837cf5cf20a2c852d10f655668dfc150ef0, 0x16be5251fdf88d2ea587ff51ca4a3eb87bdb8bbd815c774b4dad3b72cceb8d87, 0x82bc2eb23a37e62ad4843df8cffd588aad32a61e81a9ad970b3fbd112adb923f, 0x648cc9c8f98fca8215721c434464e02aa7f83a1bc7d9ab774183e069fe2a4ba0, 0x8b40cf2544c9b8b82436b3165df2b5b63f55c02aa02d4cca8cf7a58c7c67e421, 0x66b0ecdbac0b66b61ff61c352d0252bea5836f11d3e4875eb12affc9792359e4) |};
  {| b_certs := [Fac 3;
       Fac 7;
       Fac 5;
       Fac 3;
       Fac 37;
       Fac 7729091;
       Fac 3;
       Fac 5;
       Fac 7;
       Fac 3;
       Fac 37633;
       Fac 13;
       Fac 3;
       Fac 23;
       Fac 53;
       Fac 3;
       Fac 509;
       Fac 5;
       Fac 3;
       Fac 947;
       Fer 12 0x85e8ca0ecf7e438d615ece57ab4b24d1132c163fc2a320e05983fe9e5a2ae97dc21f789b91258d93 0x83eff1a08314eada9c0ea4632995d48085536959caafd1775b75e1059a0528b7c0f4620f7cb98056;
       Fac 3;
       Fac 5;
       Fac 11;
       Fac 3;
       Fac 272116967;
       Fac 1187;
       Fac 3;
       Fac 17010977;
       Fac 7;
       Fac 3;
       Fac 33053;
       Fac 5;
       Fac 3;
       Fac 11;
       Fac 641;
       Fac 3;
       Fac 5;
       Fac 2969;
       Fac 3;
       Fac 114083;
       Fac 37;
       Fac 3;
       Fac 7;
       Fer 12 0x116ed6d1a7591bd1cff8814b768b4b8780695fe119a3c5019e2e02bb1f179b1bfda57622d9de3665 0x2aebd6ee9ae2f86ac9297734eb2d10f5333309d71e31cf91adad694215a2cdfe0af13b66afc87875;
       Fac 3;
       Fac 17;
       Fac 5;
       Fac 3;
       Fac 6247;
       Fac 7;
       Fac 3;
       Fac 5;
       Fac 31;
       Fac 3;
       Fac 127;
       Fac 11;
       Fac 3;
       Fac 41;
       Fac 23;
       Fac 3;
       Fac 197;
       Fac 5;
       Fac 3;
       Fac 7;
       Fac 107;
       Fac 3;
       Fac 5;
       Fac 106024095883;
       Fac 3;
       Fac 141103613617;
       Fac 7;
       Fac 3;
       Fac 89;
       Fac 16979;
       Fac 3;
       Fac 13;
       Fac 5;
       Fac 3;
       Fac 3511;
       Fac 17;
       Fac 3;
       Fac 5;
       Fac 88877797;
       Fac 3;
       Fac 7;
       Fac 11132453;
       Fac 3;
       Fac 281;
       Fac 11;
       Fac 3;
       Fer 12 0x7bfff5c23a0fd6e5a2853e545bc13aa38c2518dac05cc72857f89bd5bc4208ff73f901def9f6f8d5 0x27f8ef255bffe08dd0d9b91bd0ecd3b1169f9a731becaeac2834f9d7a711b3196db1b824f727b301;
       Fac 5;
       Fac 3;
       Fac 19;
       Fac 4153;
       Fac 3;
       Fac 5;
       Fac 47;
       Fac 3;
       Fac 11;
       Fac 5147;
       Fac 3;
       Fac 772088869;
       Fac 42463;
       Fac 3;
       Fac 7;
       Fac 5;
       Fac 3;
       Fac 29;
       Fac 59;
       Fac 3;
       Fac 5;
       Fac 7;
       Fac 3;
       Fac 13;
       Fac 71;
       Fac 3;
       Fac 251;
       Fac 113;
       Fac 3;
       Fac 215797;
       Fac 5;
       Fac 3;
       Fac 347];
     b_squares := [(0xba11187bdda47caa796cad83244edd4d9a0a1d81362151c374c11264a7caef65cf2d6bc216d8533b, 0xa3cb4101b34dcbd4fcde85a6566d13e5ac1cebc320e0c23baf85b153daea09a1319a50a0aeb4d972); (0x1b97f96dfd878722a73f7a37cce1609b034f7268251f3b90f4afa1384a46f911201080417f3a472e, 0x39a2f94e218bd53d32c0b2a482b2d4ffd1993676c089d01ce372a20b35d06f4eb8a5be3fbc00e8f); (0x4dcad78fde73c3a8651a8f2cbc36be8adb9fba0b127535710a6bd938183a529e7d2a8f2dc102cfdd, 0x1ca17e5a9285401cbd098d4a35fcc1779524721c0f7f180d153e184ac0f2404f61174c756b1a6a53); (0x157ac770c5686fc783386351762c334a47b2cce3127b987d41a122bee4384024a40aa0160dde7c55, 0x22ecb9b85e4cce6c27022bbd0f36c6822480c3542cf03a9a409070547ca0ae11ca462837114fcf3)];
     b_root := 0x3552aa97718c7cbc27614a69d3a178ac2dd68070705993655194b1c5255736441e3b86abb2ed7ba0; b_quot := 0xd73b88a2d70db281b33de9899304879ecab7e41959744af1341f34a6ae76d233be38203d871aaea;
     b_fourth := (0x15f75caf668077f7e85b42eb01f0a81ff56ecd6191d55cb82b7d861458a18fefc3e5ab7496f3c7b1, 0x2486721653b9d503109e1c50d0eaf5a514cd688f4ab307cf6ae965b791303d46d4bf90710155a78, 0x81b063404030cc2a3165ebf290a7e8b5361065d22b699e2d31b27bbbdeeb8a8bfd7979879e605019, 0x4f92ba540468f34ca1e5d257c9aad73b84dd15fcf77ecb84594346271f469724e5d29f421a09299b, 0x8d6d147ea6674f2f30cc038dc379cd69822552e4eb8fcacf155a2511cfba22a979db80fb688f71d4, 0x2a13d6b81218a00c5c07e00e4666fcb41dd08544132d92602aa54626a0827f9c7dcfdc1438c13535) |};
  {| b_certs := [Fac 3;
       Fac 11;
       Fac 181;
       Fac 3;
       Fac 5;
       Fac 13;
       Fac 3;
       Fac 16139;
       Fac 487;
       Fac 3;
       Fac 5023;
       Fac 1289;
       Fac 3;
       Fac 7;
       Fac 5;
       Fac 3;
       Fac 37;
       Fac 6466189577;
       Fac 3;
       Fac 5;
       Fac 7;
       Fac 3;
       Fac 83;
       Fac 11;
       Fac 3;
       Fac 611551;
       Fac 41;
       Fac 3;
       Fac 198067027;
       Fac 5;
       Fac 3;
       Fac 13;
       Fac 53;
       Fac 3;
       Fac 5;
       Fac 61;
       Fac 3;
       Fac 1171;
       Fac 23;
       Fac 3;
       Fac 17;
       Fac 7;
       Fac 3;
       Fac 929;
       Fac 5;
       Fac 3;
       Fac 278617;
       Fac 131;
       Fac 3;
       Fac 5;
       Fac 19;
       Fac 3;
       Fac 727;
       Fac 37;
       Fac 3;
       Fac 7;
       Fac 11;
       Fac 3;
       Fac 216840170977;
       Fac 5;
       Fac 3;
       Fac 23;
       Fac 7;
       Fac 3;
       Fac 5;
       Fer 14 0x21a861d2cdb7c17bacd298de874118f82303e9f71ca16fbaff5924c0cc3bb87d79bd32b569e6ad22722d5dee46acc6d4 0x6a92b22e015be78d31c854bbcf4383a9c8fd7b0b619226ebae5552e17d8b74ae7b114cf5bb4c270441dad4a46c7c7da;
       Fac 3;
       Fac 11;
       Fac 101;
       Fac 3;
       Fac 13;
       Fer 14 0x12b7aea5222ac6153eaebcea720e0194305213e060e5c70f717f9bd476522b8d9f3b5274e0593f94e8aa2ea51d8e4885 0x3b4530835908e721f788ea37996cc807bcefb2da476a2bebb5c99e619b4cfdbad2ca46d737a93869419ee6bc60751363;
       Fac 3;
       Fac 29;
       Fac 5;
       Fac 3;
       Fac 7;
       Fac 233;
       Fac 3;
       Fac 5;
       Fac 347;
       Fac 3;
       Fac 682247;
       Fac 7;
       Fac 3;
       Fac 53;
       Fac 1789;
       Fac 3;
       Fac 19;
       Fac 5;
       Fac 3;
       Fac 17;
       Fac 21863;
       Fac 3;
       Fac 5;
       Fac 55753259;
       Fac 3;
       Fac 7;
       Fac 97;
       Fac 3;
       Fac 11;
       Fac 89;
       Fac 3];
     b_squares := [(0x76ab75d9ddbf9116a167a56c328170a8bffa932b4c161d093f4e07024919440aeb29df0266dc99d01909a180ee43cb5d, 0x64128ee48fb45ebf2c9cfb956b2822319758f16249d203b9ee75ce976634eb966ddf33682d7403b382080417b394e5cc)];
     b_root := 0x1307370956efa539d0733d7d474cf4b90acb4a3665989d05247aebabd2e01545df253d2ec98037b69b6d8d50967751cb; b_quot := 0x292ac04cf8665e92178fbf459577d57314ccb1160f72a91769f1b52194481639823a529abebb9fdbe5cbafa9909df8e;
     b_fourth := (0x4ad935a569a53b30f8f30976e9b19942445cb42e704dc86f30be612560eb628bd9fd696d08604c94bae95c74ab7ec337, 0x27cf8dda75e257abcdeb9c7017dd8804493cdcb61dbddcec64a7a2ae8413848831505345cb0d8722550c19ffbb8f69c2, 0x7944e97a2d95ce0bcd4e2df1610d432f1fdcb8e10be624fba85b57bc6da5189ef6eeab80f4c3bf724df56d062db4b3eb, 0x68812e89a089ded7993741135048b1c66865e14f018fc13619b0f820855c3ddc1e4e3914d010ea5df73da97dcaafc30f, 0x3aa121d24e11cf41f8428b9791a6a32304349db5a1e5336590d82dd475fdb9ba1b094a5aff4b136406f6ffee2bb367dc, 0x33904a184243681735da694cd6537cb58ceb2bc66770d1cf3c5165fc7d8eb7a7b4c2930a1cc14f95c70b3be01a341d49) |};
  {| b_certs := [Fac 11;
       Fac 17;
       Fac 3;
       Fac 7;
       Fac 5;
       Fac 3;
       Fac 53;
       Fac 89;
       Fac 3;
       Fac 5;
       Fac 7;
       Fac 3;
       Fac 23;
       Fac 167;
       Fac 3;
       Fac 13;
       Fac 521;
       Fac 3;
       Fac 17;
       Fac 5;
       Fac 3;
       Fac 283;
       Fac 11;
       Fac 3;
       Fac 5;
       Fac 43;
       Fac 3;
       Fac 109;
       Fac 13;
       Fac 3;
       Fer 18 0x54b87a20422890583df6f862c784b38807d81b02024f4a7b289a10604613313f3be76f92eacb1045ce2e55676f9cd345e6eb5415e7054442da7b83a25323e67 0x1e4e94e56b3dbce48eb09daebd7e0fe386096a011b5b49249ebb38efbb265209cf63ea753b08a5319143d956067a1bb616b5292c59968a4d8277ee10ae556f8f;
       Fac 7;
       Fac 3;
       Fac 11;
       Fac 5;
       Fac 3;
       Fac 1741;
       Fac 19;
       Fac 3;
       Fac 5;
       Fac 733;
       Fac 3;
       Fac 83;
       Fer 18 0x8cd05a82a67985ef0f42d5cb1fa8e1aa61ead022db85413f17a956b8ba9aca711a2e766450d43bc0bec16c95ef187c6c5eede63e41c2047d82c8d9b7b46afeaa 0x755e4b14f6c130d66394fd4196bd01270e5d1334c88d414c8cfb1f233b8aec91b3badd415349083e77885b4bfa98ef8bdb114de7a6466459dd327b3ec49a25fb;
       Fac 3;
       Fac 7;
       Fac 91931783;
       Fac 3;
       Fac 33547;
       Fac 5;
       Fac 3;
       Fac 31;
       Fac 7;
       Fac 3;
       Fac 5;
       Fac 11;
       Fac 3;
       Fac 113;
       Fac 23;
       Fac 3;
       Fac 27107;
       Fac 59;
       Fac 3;
       Fac 37;
       Fac 5;
       Fac 3;
       Fac 7;
       Fac 13;
       Fac 3;
       Fac 5;
       Fac 211182353;
       Fac 3;
       Fac 12073;
       Fac 7;
       Fac 3;
       Fac 19;
       Fer 18 0x5a848fafd0ec1afe8f0513d473efa3cd2bb79f09dd31d027023b57ab377c237f0bd2c072dd96217b377e3c4a332823713dc9b33fa39eabc46bf5f6679567828f 0x8387c13a3528cac51b09a27a9b6e1c3313ae2c68f2d1a55d58723e5ee9906fb458c8b8704cf332432930ca3d1a0fb6db44c70408a5d7fda443ef962592ebb79a;
       Fac 3;
       Fac 29;
       Fac 5;
       Fac 3;
       Fac 23;
       Fac 31;
       Fac 3;
       Fac 5;
       Fac 120293;
       Fac 3;
       Fac 7;
       Fac 11;
       Fac 3;
       Fac 797;
       Fac 5333;
       Fac 3;
       Fac 13;
       Fac 5;
       Fac 3;
       Fac 67;
       Fer 18 0x97b5f048a9b487f748f4d067f45c4bb903b18744b4b09dab6988c51109f8d522e9f1441f5d9503d06f4f46eb96740294ca6def71865b2607d263a4f877a837fe 0x27beeaecb7000d7f533d4eaa2c2df6a2c62beaf88bbcf48ce0966bfd60506ce2bfbc7b8551f6b9f7fda5f9468013b45d59aeadc8ab1b52da0bdb6da64a000ac2;
       Fac 3;
       Fac 5;
       Fac 37;
       Fac 3;
       Fac 843371;
       Fac 17;
       Fac 3;
       Fer 18 0x4d627e00e025f806778126b681985d32fa3e210cd0cf1e986bb67cc4263bef69a19fc860bb6c5b694541ca4d81a132805692faa685c5ef7c0d340211b78ef432 0x35262eea785331fad7775c07c20fbf30207e1dd85b530ff96e636e23dcecf059762add5e74d16dd82dddb4e584aecbd9a0735c28088c9a2292bb306bedbefda;
       Fac 13;
       Fac 3;
       Fac 7;
       Fac 5;
       Fac 3;
       Fac 43;
       Fac 53;
       Fac 3;
       Fac 5;
       Fac 7;
       Fac 3;
       Fac 2767;
       Fer 18 0x2a09b328a6933064c30fa64d40fef79d107ae1cbd8659920fa7295ac6c427e554ac22ccb41cd7de2f852b062131c60d22e902c743b94da41ce3a17f1b56f7b3a 0x2d1d771df5fede5e23ea3198802b03d4c36c096e4ebbbe61988d3da5796d27faa94afd917c9fb72920fba6e0d755d525e6f25876363a647585fa204c15df50e2;
       Fac 3;
       Fac 17;
       Fac 11;
       Fac 3;
       Fac 41;
       Fac 5;
       Fac 3;
       Fac 101;
       Fac 23;
       Fac 3;
       Fac 5;
       Fac 211;
       Fac 3;
       Fac 11;
       Fac 47;
       Fac 3;
       Fer 18 0x8c64cce56422e555e5b937b97acd96cbed2e7d22a1d5262ee0a92738b09da2d5cd096e5712e0b46bc52a795280d1a7fff521e30b9e9bf09a2b896cf66877ad6b 0x5747c6093ac98046999f07b87776bdf4093ee7ecad747b2acfb647ed3ff220b7e312620e375ff99e1100a449bb18791a0ce7c27e1deeb29bb44c0f3642b6b22;
       Fac 7;
       Fac 3;
       Fac 994706729;
       Fac 5;
       Fac 3;
       Fer 18 0x54a6372f8cf7f96148a2787464baa3e76617f078b6ec06e0a24b70ff05cff68ad6cc51881942361e65a05bdbf1338bf09e3dab735e2c07efa26ee65f54d7366a 0x1035b98cce794f1b2e930a6ec55a97531a5bbcd2a3361bd6f0de09a8fa65c4d7bfa23017dabd1a4f70c841ae2ffab521a46b50af1533515d9297758f323ada69;
       Fac 641;
       Fac 3;
       Fac 5;
       Fac 13;
       Fac 3;
       Fac 223;
       Fac 208379;
       Fac 3;
       Fac 7;
       Fac 19;
       Fac 3;
       Fer 18 0x9006a97cba8be6034e49e0986c5eba26231b64d894e39a52fbf3a1562067a666679fb2eac1cba1c65559c219b89ad4b818f73b720acefd3e06c990e53ee5a8bf 0x7311ccfc1367304886832fe434675955c12a5076d93eb170d2f68391356fc7ebe7be5b924729710525bb4a2d193f07971343464a925aedc4542045cbcd5e5c1c;
       Fac 5;
       Fac 3;
       Fac 103;
       Fac 7;
       Fac 3;
       Fac 5;
       Fac 107;
       Fac 3;
       Fac 6455377;
       Fac 67;
       Fac 3;
       Fac 11;
       Fac 4852367281;
       Fac 3;
       Fac 97;
       Fac 5;
       Fac 3;
       Fac 7;
       Fac 363067;
       Fac 3;
       Fac 5;
       Fac 31;
       Fac 3;
       Fac 77417;
       Fac 7;
       Fac 3;
       Fac 47;
       Fac 256996037;
       Fac 3;
       Fac 131;
       Fac 5;
       Fac 3;
       Fac 236816492971;
       Fac 11;
       Fac 3;
       Fac 5;
       Fac 269;
       Fac 3;
       Fac 7;
       Fer 18 0x7220a98782969f65b6b15d7d961f09978a3b8128890fc311b39f716a8e1d3aaaf8a37e32ce8d2847e0b195591dc3c61e26b471d962ea7cb59b693cd37663e571 0x7599c65bb8cd92ac76acb2899d8baef23391aa045ecb80ea8f26d54dd9c6d47af4bb1ef8295dfbf6ef89eac0d286bc7a5ecbb2828ba2dc437df01e5e27282bb7;
       Fac 3;
       Fac 331;
       Fac 23;
       Fac 3;
       Fac 11;
       Fac 5;
       Fac 3;
       Fac 929;
       Fac 727;
       Fac 3;
       Fac 5;
       Fac 17;
       Fac 3;
       Fac 22133;
       Fac 19;
       Fac 3;
       Fac 13;
       Fac 37;
       Fac 3;
       Fac 7;
       Fac 5;
       Fac 3;
       Fac 18713;
       Fac 642487;
       Fac 3;
       Fac 5;
       Fac 7;
       Fac 3;
       Fac 17;
       Fac 13;
       Fac 3;
       Fac 242390873;
       Fac 1459;
       Fac 3;
       Fac 2837;
       Fac 5;
       Fac 3;
       Fac 11;
       Fac 263;
       Fac 3;
       Fac 5;
       Fac 13319353;
       Fac 3;
       Fac 31;
       Fac 59;
       Fac 3;
       Fac 43;
       Fac 7;
       Fac 3;
       Fac 2161;
       Fac 5;
       Fac 3;
       Fac 19;
       Fac 1543;
       Fac 3;
       Fac 5;
       Fac 21577;
       Fac 3;
       Fac 29;
       Fac 11;
       Fac 3;
       Fac 7;
       Fac 17;
       Fac 3;
       Fac 139;
       Fac 5;
       Fac 3;
       Fac 1571;
       Fac 7;
       Fac 3;
       Fac 5;
       Fac 19;
       Fac 3;
       Fac 107;
       Fac 31;
       Fac 3;
       Fac 50723;
       Fac 53;
       Fac 3;
       Fac 17;
       Fac 5;
       Fac 3;
       Fac 7;
       Fer 18 0x112af0792de4ca321ec6826f303db13753c206ac7f775505a40ded6cf7a9f057768256e396fbe117625a7d88ddac40e00841644292d6e66508c421334ff74b9f 0xbc41fecc6bc9ff9f5b9b947d0805d42fd9b2533308dfa12818b8a149901dcb6a4a2bc0c795d52cf0a361665429f6f39d985cfcb4f8788cd4f3969617b022b3a;
       Fac 3;
       Fac 5;
       Fac 149;
       Fac 3;
       Fer 18 0x382597e8bde092813bc8abb762683a2773722da36aef4ea1309c4ea2216d64fc67f6370cbf85abf83f78e03b83fa3f4654198adb493b088ab03f3d8a1d84cb5f 0x2e6fe6c3a119a86a2ac75860730266b87b2c5943670d8fd8b17c75981528d38a7e8d24e01f42fee4a40751a4d98af7a0a2d47f0aa423b7b413e8c058f7abf94f;
       Fac 7;
       Fac 3;
       Fac 37;
       Fac 11;
       Fac 3;
       Fac 13;
       Fac 5;
       Fac 3;
       Fac 83];
     b_squares := [];
     b_root := 0x3589de96eeaadb96b54ffaa4a78b0afd984ddc5a2407eb3b537c11229afbc083c43d09ab82d7d97ae9c2462dd91ea5c6779594cd195548f7cfe1b6557a269475; b_quot := 0x10c68e8fdd99ce6d3d85e4d85544a15ed2cb959cb5b6e0d0d6bc2ecf7f359d59379dae8a59f5f7703ecaf7efefb14913dcc5214d2462d0accb294f5bb93a9ff4;
     b_fourth := (0x12ee58e6764838b69782136f0f2d3ba06e27695716054092e60a80bedb212b64e585d90bce13761f85c3f1d2a64e3be8fea2220f01eba5eeb0f35dbd29d922ab, 0x218f352c1af09597414f86676811490a9bf570713b1fccff0c0e0455f39e5e45e1e215e7538ec9e4861b01ca638df7ed1dc000d735921693629914dc7b16c56, 0x2730cd020de1b8ead89452ddaf5e71f40f60ff88e4dde904587e383b6a610dfd6a989ee8ef2edb21446265ba95fc1b93e39b243c0ff2e81cc35906720139d897, 0x8fd2cace7a1ae5a9aa8eb1bac00baa383a42ce00d7e7a100aa67d57994024473f65bd647940e70cce2ce5d3d93c9a87da3febb5b348ec7195242adfe71f66f7, 0x6d9fcf1f278854452581ebd14f1b1685251fd7bdaf5cb5b9fb946e18d41f966a3539000fcb375ff7a54dec6ad9a982d2020f5c7df7e0b231a1eb7039e4c2f49c, 0x4d1c96357da527950c0926186f81fcf113f51a6a88958e362ee406bd47086b78d42944b437dcc3fd393d67ab2b031b08ee958a06c4fa5122e0a51f0dd3647739) |}].
