(** The S-boxes tabulated in analysis/. *)
From Coq Require Import ZArith List.
Import ListNotations.
Local Open Scope Z_scope.

(** analysis/sbox_nonlinearity.py:75-106; the same numbers stand at
    analysis/sbox_analysis.py:14-45 and analysis/permutation.py:42-73 *)
Definition aes_sbbytes : list Z :=
  [99; 124; 119; 123; 242; 107; 111; 197; 48; 1; 103; 43; 254; 215; 171; 118;
   202; 130; 201; 125; 250; 89; 71; 240; 173; 212; 162; 175; 156; 164; 114; 192;
   183; 253; 147; 38; 54; 63; 247; 204; 52; 165; 229; 241; 113; 216; 49; 21;
   4; 199; 35; 195; 24; 150; 5; 154; 7; 18; 128; 226; 235; 39; 178; 117;
   9; 131; 44; 26; 27; 110; 90; 160; 82; 59; 214; 179; 41; 227; 47; 132;
   83; 209; 0; 237; 32; 252; 177; 91; 106; 203; 190; 57; 74; 76; 88; 207;
   208; 239; 170; 251; 67; 77; 51; 133; 69; 249; 2; 127; 80; 60; 159; 168;
   81; 163; 64; 143; 146; 157; 56; 245; 188; 182; 218; 33; 16; 255; 243; 210;
   205; 12; 19; 236; 95; 151; 68; 23; 196; 167; 126; 61; 100; 93; 25; 115;
   96; 129; 79; 220; 34; 42; 144; 136; 70; 238; 184; 20; 222; 94; 11; 219;
   224; 50; 58; 10; 73; 6; 36; 92; 194; 211; 172; 98; 145; 149; 228; 121;
   231; 200; 55; 109; 141; 213; 78; 169; 108; 86; 244; 234; 101; 122; 174; 8;
   186; 120; 37; 46; 28; 166; 180; 198; 232; 221; 116; 31; 75; 189; 139; 138;
   112; 62; 181; 102; 72; 3; 246; 14; 97; 53; 87; 185; 134; 193; 29; 158;
   225; 248; 152; 17; 105; 217; 142; 148; 155; 30; 135; 233; 206; 85; 40; 223;
   140; 161; 137; 13; 191; 230; 66; 104; 65; 153; 45; 15; 176; 84; 187; 22].

(** analysis/sbox_nonlinearity.py:110-141, analysis/sbox_analysis.py:48-79,
    analysis/permutation.py:76-107 *)
Definition sms4_sbbytes : list Z :=
  [214; 144; 233; 254; 204; 225; 61; 183; 22; 182; 20; 194; 40; 251; 44; 5;
   43; 103; 154; 118; 42; 190; 4; 195; 170; 68; 19; 38; 73; 134; 6; 153;
   156; 66; 80; 244; 145; 239; 152; 122; 51; 84; 11; 67; 237; 207; 172; 98;
   228; 179; 28; 169; 201; 8; 232; 149; 128; 223; 148; 250; 117; 143; 63; 166;
   71; 7; 167; 252; 243; 115; 23; 186; 131; 89; 60; 25; 230; 133; 79; 168;
   104; 107; 129; 178; 113; 100; 218; 139; 248; 235; 15; 75; 112; 86; 157; 53;
   30; 36; 14; 94; 99; 88; 209; 162; 37; 34; 124; 59; 1; 33; 120; 135;
   212; 0; 70; 87; 159; 211; 39; 82; 76; 54; 2; 231; 160; 196; 200; 158;
   234; 191; 138; 210; 64; 199; 56; 181; 163; 247; 242; 206; 249; 97; 21; 161;
   224; 174; 93; 164; 155; 52; 26; 85; 173; 147; 50; 48; 245; 140; 177; 227;
   29; 246; 226; 46; 130; 102; 202; 96; 192; 41; 35; 171; 13; 83; 78; 111;
   213; 219; 55; 69; 222; 253; 142; 47; 3; 255; 106; 114; 109; 108; 91; 81;
   141; 27; 175; 146; 187; 221; 188; 127; 17; 217; 92; 65; 31; 16; 90; 216;
   10; 193; 49; 136; 165; 205; 123; 189; 45; 116; 208; 18; 184; 229; 180; 176;
   137; 105; 151; 74; 12; 150; 119; 126; 101; 185; 241; 9; 197; 110; 198; 132;
   24; 240; 125; 236; 58; 220; 77; 32; 121; 238; 95; 62; 215; 203; 57; 72].

(** analysis/sbox_nonlinearity.py:147-165 (hexadecimal text there) *)
Definition streebog_sbbytes : list Z :=
  [177; 148; 186; 200; 10; 8; 245; 59; 54; 109; 0; 142; 88; 74; 93; 228;
   133; 4; 250; 157; 27; 182; 199; 172; 37; 46; 114; 194; 2; 253; 206; 13;
   91; 227; 214; 18; 23; 185; 97; 129; 254; 103; 134; 173; 113; 107; 137; 11;
   92; 176; 192; 255; 51; 195; 86; 184; 53; 196; 5; 174; 216; 224; 127; 153;
   225; 43; 220; 26; 226; 130; 87; 236; 112; 63; 204; 240; 149; 238; 141; 241;
   193; 171; 118; 56; 159; 230; 120; 202; 247; 198; 248; 96; 213; 187; 156; 79;
   243; 60; 101; 123; 99; 124; 48; 106; 221; 78; 167; 121; 158; 178; 61; 49;
   62; 152; 181; 110; 39; 211; 188; 207; 89; 30; 24; 31; 76; 90; 183; 147;
   233; 222; 231; 44; 143; 12; 15; 166; 45; 219; 73; 244; 111; 115; 150; 71;
   6; 7; 83; 22; 237; 36; 122; 55; 57; 203; 163; 131; 3; 169; 139; 246;
   146; 189; 155; 28; 229; 209; 65; 1; 84; 69; 251; 201; 94; 77; 14; 242;
   104; 32; 128; 170; 34; 125; 100; 47; 38; 135; 249; 52; 144; 64; 85; 17;
   190; 50; 151; 19; 67; 252; 154; 72; 160; 42; 136; 95; 25; 75; 9; 161;
   126; 205; 164; 208; 21; 68; 175; 140; 165; 132; 80; 191; 102; 210; 232; 138;
   162; 215; 70; 82; 66; 168; 223; 179; 105; 116; 197; 81; 235; 35; 41; 33;
   212; 239; 217; 180; 58; 98; 40; 117; 145; 20; 16; 234; 119; 108; 218; 29].

(** analysis/sbox_nonlinearity.py:169-192 *)
Definition gost_pi : list Z :=
  [252; 238; 221; 17; 207; 110; 49; 22; 251; 196; 250; 218; 35; 197; 4; 77;
   233; 119; 240; 219; 147; 46; 153; 186; 23; 54; 241; 187; 20; 205; 95; 193;
   249; 24; 101; 90; 226; 92; 239; 33; 129; 28; 60; 66; 139; 1; 142; 79;
   5; 132; 2; 174; 227; 106; 143; 160; 6; 11; 237; 152; 127; 212; 211; 31;
   235; 52; 44; 81; 234; 200; 72; 171; 242; 42; 104; 162; 253; 58; 206; 204;
   181; 112; 14; 86; 8; 12; 118; 18; 191; 114; 19; 71; 156; 183; 93; 135;
   21; 161; 150; 41; 16; 123; 154; 199; 243; 145; 120; 111; 157; 158; 178; 177;
   50; 117; 25; 61; 255; 53; 138; 126; 109; 84; 198; 128; 195; 189; 13; 87;
   223; 245; 36; 169; 62; 168; 67; 201; 215; 121; 214; 246; 124; 34; 185; 3;
   224; 15; 236; 222; 122; 148; 176; 188; 220; 232; 40; 80; 78; 51; 10; 74;
   167; 151; 96; 115; 30; 0; 98; 68; 26; 184; 56; 130; 100; 159; 38; 65;
   173; 69; 70; 146; 39; 94; 85; 47; 140; 163; 165; 125; 105; 213; 149; 59;
   7; 88; 179; 64; 134; 172; 29; 247; 48; 55; 107; 228; 136; 217; 231; 137;
   225; 27; 131; 73; 76; 63; 248; 254; 141; 83; 170; 144; 202; 216; 133; 97;
   32; 113; 103; 164; 45; 43; 9; 91; 203; 155; 37; 208; 190; 229; 108; 82;
   89; 166; 116; 210; 230; 244; 180; 192; 209; 102; 175; 194; 57; 75; 99; 182].
