(* The sample configurations of the repository, byte by byte. *)
From Coq Require Import ZArith List.
From Verif Require Import Base.
Import ListNotations.
Open Scope Z_scope.

(* bin/log.yaml:1-37 *)
Definition log_yaml : text := [
   35; 32; 233; 133; 141; 232; 161; 168; 230; 150; 135; 228; 187; 182; 32; 32; 13; 10; 32; 35; 108; 111; 103; 103;
   101; 114; 95; 110; 97; 109; 101; 58; 32; 13; 10; 32; 108; 111; 103; 103; 101; 114; 95; 100; 101; 115; 99; 58; 32;
   49; 46; 49; 46; 52; 46; 49; 13; 10; 32; 104; 111; 116; 95; 117; 112; 100; 97; 116; 101; 58; 32; 116; 114; 117; 101;
   13; 10; 35; 32; 48; 233; 128; 154; 233; 129; 147; 228; 184; 186; 229; 164; 154; 231; 186; 191; 231; 168; 139; 229;
   184; 166; 230; 150; 135; 228; 187; 182; 229; 146; 140; 229; 177; 143; 230; 152; 190; 232; 190; 147; 229; 135; 186;
   13; 10; 32; 45; 32; 99; 104; 97; 110; 110; 101; 108; 58; 32; 48; 32; 32; 13; 10; 32; 32; 32; 32; 112; 114; 105;
   111; 114; 105; 116; 121; 58; 32; 105; 110; 102; 111; 13; 10; 32; 32; 32; 32; 99; 97; 116; 101; 103; 111; 114; 121;
   58; 32; 48; 13; 10; 32; 32; 32; 32; 99; 97; 116; 101; 103; 111; 114; 121; 95; 101; 120; 116; 101; 110; 100; 58; 32;
   48; 13; 10; 32; 32; 32; 32; 45; 100; 101; 118; 105; 99; 101; 58; 32; 48; 13; 10; 32; 32; 32; 32; 32; 32; 32; 32;
   100; 105; 115; 97; 98; 108; 101; 58; 32; 102; 97; 108; 115; 101; 13; 10; 32; 32; 32; 32; 32; 32; 32; 32; 111; 117;
   116; 95; 116; 121; 112; 101; 58; 32; 102; 105; 108; 101; 13; 10; 32; 32; 32; 32; 32; 32; 32; 32; 112; 114; 105;
   111; 114; 105; 116; 121; 58; 32; 105; 110; 102; 111; 13; 10; 32; 32; 32; 32; 32; 32; 32; 32; 99; 97; 116; 101; 103;
   111; 114; 121; 58; 32; 48; 13; 10; 32; 32; 32; 32; 32; 32; 32; 32; 99; 97; 116; 101; 103; 111; 114; 121; 95; 101;
   120; 116; 101; 110; 100; 58; 32; 48; 13; 10; 32; 32; 32; 32; 32; 32; 32; 32; 112; 97; 116; 104; 58; 32; 34; 46; 47;
   108; 111; 103; 47; 34; 13; 10; 32; 32; 32; 32; 32; 32; 32; 32; 102; 105; 108; 101; 58; 32; 34; 36; 80; 78; 65; 77;
   69; 95; 36; 89; 69; 65; 82; 36; 77; 79; 78; 36; 68; 65; 89; 34; 13; 10; 32; 32; 32; 32; 32; 32; 32; 32; 114; 111;
   108; 108; 98; 97; 99; 107; 58; 32; 52; 13; 10; 32; 32; 32; 32; 32; 32; 32; 32; 108; 105; 109; 105; 116; 95; 115;
   105; 122; 101; 58; 32; 49; 48; 48; 48; 32; 109; 32; 35; 111; 110; 108; 121; 32; 115; 117; 112; 112; 111; 114; 116;
   32; 77; 32; 98; 121; 116; 101; 13; 10; 32; 32; 32; 32; 45; 100; 101; 118; 105; 99; 101; 58; 32; 49; 13; 10; 32; 32;
   32; 32; 32; 32; 32; 32; 100; 105; 115; 97; 98; 108; 101; 58; 32; 102; 97; 108; 115; 101; 13; 10; 32; 32; 32; 32;
   32; 32; 32; 32; 111; 117; 116; 95; 116; 121; 112; 101; 58; 32; 115; 99; 114; 101; 101; 110; 13; 10; 32; 32; 32; 32;
   32; 32; 32; 32; 99; 97; 116; 101; 103; 111; 114; 121; 58; 32; 48; 13; 10; 32; 32; 32; 32; 32; 32; 32; 32; 99; 97;
   116; 101; 103; 111; 114; 121; 95; 101; 120; 116; 101; 110; 100; 58; 32; 48; 13; 10; 32; 35; 32; 49; 233; 128; 154;
   233; 129; 147; 228; 184; 186; 229; 164; 154; 231; 186; 191; 231; 168; 139; 228; 184; 141; 230; 140; 130; 228; 187;
   187; 228; 189; 149; 232; 190; 147; 229; 135; 186; 231; 171; 175; 13; 10; 32; 45; 32; 99; 104; 97; 110; 110; 101;
   108; 58; 32; 49; 13; 10; 13; 10; 32; 35; 32; 50; 233; 128; 154; 233; 129; 147; 228; 184; 186; 229; 141; 149; 231;
   186; 191; 231; 168; 139; 229; 144; 140; 230; 173; 165; 229; 134; 153; 230; 150; 135; 228; 187; 182; 13; 10; 32; 45;
   32; 99; 104; 97; 110; 110; 101; 108; 58; 32; 50; 13; 10; 32; 32; 32; 32; 115; 121; 110; 99; 95; 119; 114; 105; 116;
   101; 58; 32; 49; 32; 35; 111; 110; 108; 121; 32; 115; 117; 112; 112; 111; 114; 116; 32; 115; 105; 110; 103; 108;
   101; 32; 116; 104; 114; 101; 97; 100; 13; 10; 32; 32; 32; 32; 45; 100; 101; 118; 105; 99; 101; 58; 32; 48; 13; 10;
   32; 32; 32; 32; 32; 32; 32; 32; 100; 105; 115; 97; 98; 108; 101; 58; 32; 102; 97; 108; 115; 101; 13; 10; 32; 32;
   32; 32; 32; 32; 32; 32; 111; 117; 116; 95; 116; 121; 112; 101; 58; 32; 102; 105; 108; 101; 13; 10; 13; 10; 32; 35;
   32; 51; 233; 128; 154; 233; 129; 147; 228; 184; 186; 229; 141; 149; 231; 186; 191; 231; 168; 139; 230; 151; 160;
   232; 190; 147; 229; 135; 186; 231; 171; 175; 13; 10; 32; 45; 32; 99; 104; 97; 110; 110; 101; 108; 58; 32; 51; 13;
   10; 32; 32; 32; 32; 115; 121; 110; 99; 95; 119; 114; 105; 116; 101; 58; 32; 49; 32; 35; 111; 110; 108; 121; 32;
   115; 117; 112; 112; 111; 114; 116; 32; 115; 105; 110; 103; 108; 101; 32; 116; 104; 114; 101; 97; 100; 13; 10].
(* dist/include/fn-log/default_log.yaml *)
Definition default_log_yaml : text := [
   10; 35; 32; 229; 159; 186; 231; 161; 128; 232; 175; 173; 230; 179; 149; 32; 32; 32; 10; 35; 35; 32; 231; 188; 169;
   232; 191; 155; 32; 231; 155; 184; 229; 144; 140; 115; 99; 111; 112; 101; 231; 154; 132; 102; 105; 101; 108; 100;
   233; 156; 128; 232; 166; 129; 228; 191; 157; 230; 140; 129; 231; 188; 169; 232; 191; 155; 228; 184; 128; 232; 135;
   180; 10; 35; 35; 32; 231; 188; 169; 232; 191; 155; 32; 229; 173; 144; 229; 177; 130; 231; 186; 167; 102; 105; 101;
   108; 100; 231; 188; 169; 232; 191; 155; 229; 164; 167; 228; 186; 142; 231; 136; 182; 229; 177; 130; 231; 186; 167;
   102; 105; 101; 108; 100; 32; 32; 10; 10; 35; 35; 32; 230; 149; 176; 231; 187; 132; 32; 228; 187; 165; 45; 228; 184;
   186; 229; 137; 141; 231; 188; 128; 32; 233; 156; 128; 232; 166; 129; 230; 148; 190; 229; 156; 168; 107; 101; 121;
   228; 185; 139; 229; 137; 141; 32; 32; 32; 10; 35; 35; 32; 230; 179; 168; 233; 135; 138; 32; 228; 187; 187; 230;
   132; 143; 232; 161; 140; 229; 134; 133; 232; 175; 187; 229; 136; 176; 35; 228; 185; 139; 229; 144; 142; 228; 188;
   154; 229; 129; 156; 230; 173; 162; 232; 175; 165; 232; 161; 140; 231; 154; 132; 232; 167; 163; 230; 158; 144; 230;
   147; 141; 228; 189; 156; 44; 32; 229; 141; 179; 228; 189; 191; 228; 189; 141; 228; 186; 142; 229; 188; 149; 229;
   143; 183; 229; 134; 133; 46; 32; 32; 10; 35; 35; 32; 107; 118; 229; 136; 134; 233; 154; 148; 231; 172; 166; 32; 58;
   32; 10; 35; 35; 32; 231; 169; 186; 231; 153; 189; 231; 172; 166; 32; 233; 128; 154; 229; 184; 184; 232; 175; 187;
   229; 136; 176; 231; 169; 186; 231; 153; 189; 231; 172; 166; 228; 188; 154; 232; 135; 170; 229; 138; 168; 232; 183;
   179; 232; 191; 135; 44; 32; 228; 189; 134; 228; 184; 141; 229; 140; 133; 230; 139; 172; 229; 176; 190; 233; 154;
   143; 229; 156; 168; 229; 128; 188; 228; 184; 173; 233; 151; 180; 231; 154; 132; 231; 169; 186; 231; 153; 189; 231;
   172; 166; 32; 32; 10; 35; 35; 32; 107; 101; 121; 32; 229; 191; 133; 233; 161; 187; 228; 184; 186; 229; 176; 143;
   229; 134; 153; 229; 173; 151; 230; 175; 141; 229; 146; 140; 228; 184; 139; 229; 136; 146; 231; 186; 191; 32; 228;
   184; 141; 229; 133; 129; 232; 174; 184; 229; 133; 182; 228; 187; 150; 229; 128; 188; 32; 32; 10; 35; 35; 32; 229;
   128; 188; 32; 228; 188; 154; 232; 135; 170; 229; 138; 168; 232; 163; 129; 229; 136; 135; 229; 137; 141; 231; 188;
   128; 231; 169; 186; 231; 153; 189; 32; 32; 10; 35; 35; 32; 229; 128; 188; 32; 231; 154; 132; 232; 161; 140; 229;
   176; 190; 232; 190; 185; 231; 149; 140; 230; 156; 137; 91; 34; 35; 92; 114; 92; 110; 92; 48; 93; 10; 35; 35; 32;
   229; 128; 188; 32; 231; 154; 132; 229; 134; 133; 229; 174; 185; 229; 129; 154; 228; 186; 134; 231; 186; 166; 230;
   157; 159; 32; 232; 140; 131; 229; 155; 180; 228; 184; 186; 58; 32; 229; 173; 151; 231; 172; 166; 230; 149; 176;
   229; 173; 151; 91; 97; 45; 122; 65; 45; 90; 48; 45; 57; 93; 32; 32; 91; 95; 45; 58; 47; 46; 44; 36; 126; 37; 93;
   32; 32; 32; 10; 35; 35; 32; 229; 128; 188; 32; 231; 154; 132; 229; 134; 133; 229; 174; 185; 233; 156; 128; 230;
   177; 130; 228; 184; 138; 228; 184; 186; 32; 230; 150; 135; 228; 187; 182; 229; 144; 141; 229; 146; 140; 232; 183;
   175; 229; 190; 132; 32; 230; 149; 176; 229; 173; 151; 32; 229; 173; 151; 231; 172; 166; 32; 229; 155; 160; 230;
   173; 164; 233; 128; 154; 232; 191; 135; 231; 186; 166; 230; 157; 159; 229; 143; 175; 228; 187; 165; 229; 135; 143;
   229; 176; 145; 228; 184; 141; 229; 191; 133; 232; 166; 129; 231; 154; 132; 233; 133; 141; 231; 189; 174; 233; 151;
   174; 233; 162; 152; 32; 32; 10; 10; 35; 32; 233; 148; 153; 232; 175; 175; 231; 160; 129; 32; 32; 228; 187; 163;
   231; 160; 129; 228; 184; 173; 230; 144; 156; 231; 180; 162; 80; 97; 114; 115; 101; 69; 114; 114; 111; 114; 67; 111;
   100; 101; 44; 32; 69; 114; 114; 78; 111; 230; 159; 165; 230; 137; 190; 229; 175; 185; 229; 186; 148; 232; 175; 180;
   230; 152; 142; 46; 32; 10; 10; 35; 32; 229; 174; 143; 232; 175; 173; 228; 185; 137; 32; 229; 189; 147; 229; 137;
   141; 229; 174; 158; 231; 142; 176; 230; 150; 185; 229; 188; 143; 32; 229; 142; 159; 229; 156; 176; 230; 155; 191;
   230; 141; 162; 40; 105; 110; 112; 108; 97; 99; 101; 41; 42; 42; 233; 154; 143; 229; 144; 142; 42; 42; 231; 154;
   132; 230; 137; 128; 230; 156; 137; 229; 173; 151; 231; 172; 166; 228; 184; 178; 229; 134; 133; 229; 174; 185; 32;
   32; 10; 35; 32; 229; 174; 143; 232; 175; 173; 228; 185; 137; 32; 232; 166; 129; 230; 179; 168; 230; 132; 143; 230;
   155; 191; 230; 141; 162; 229; 144; 142; 231; 154; 132; 229; 134; 133; 229; 174; 185; 228; 184; 141; 232; 131; 189;
   233; 149; 191; 228; 186; 142; 229; 142; 159; 230; 156; 137; 229; 134; 133; 229; 174; 185; 44; 32; 229; 143; 175;
   228; 187; 165; 233; 129; 191; 229; 133; 141; 229; 134; 133; 229; 173; 152; 233; 135; 141; 229; 136; 134; 233; 133;
   141; 229; 188; 128; 233; 148; 128; 46; 10; 35; 32; 229; 174; 143; 232; 175; 173; 228; 185; 137; 32; 232; 166; 129;
   230; 179; 168; 230; 132; 143; 228; 184; 141; 232; 166; 129; 230; 155; 191; 230; 141; 162; 230; 142; 137; 230; 173;
   163; 229; 184; 184; 231; 154; 132; 229; 173; 151; 231; 172; 166; 228; 184; 178; 44; 32; 229; 140; 133; 229; 144;
   171; 229; 128; 188; 228; 184; 173; 231; 154; 132; 229; 134; 133; 229; 174; 185; 32; 32; 10; 32; 10; 10; 35; 32;
   229; 143; 152; 233; 135; 143; 32; 229; 146; 140; 229; 174; 143; 230; 155; 191; 230; 141; 162; 231; 177; 187; 228;
   188; 188; 44; 32; 228; 184; 141; 229; 144; 140; 231; 130; 185; 229; 156; 168; 228; 186; 142; 230; 137; 167; 232;
   161; 140; 230; 155; 191; 230; 141; 162; 229; 138; 168; 228; 189; 156; 230; 151; 182; 229; 128; 153; 228; 188; 154;
   229; 162; 158; 229; 138; 160; 229; 137; 141; 231; 188; 128; 36; 232; 191; 155; 232; 161; 140; 230; 155; 191; 230;
   141; 162; 44; 32; 229; 185; 182; 229; 140; 133; 232; 163; 185; 123; 125; 233; 135; 141; 229; 164; 141; 230; 137;
   167; 232; 161; 140; 228; 184; 128; 230; 172; 161; 46; 32; 32; 32; 228; 190; 139; 229; 166; 130; 118; 97; 114; 58;
   123; 116; 97; 103; 48; 61; 49; 125; 32; 32; 228; 188; 154; 230; 155; 191; 230; 141; 162; 230; 142; 137; 36; 123;
   116; 97; 103; 48; 125; 32; 229; 146; 140; 32; 36; 116; 97; 103; 48; 32; 32; 10; 10; 35; 32; 229; 174; 143; 44; 229;
   143; 152; 233; 135; 143; 32; 229; 157; 135; 228; 184; 141; 232; 131; 189; 233; 135; 141; 229; 164; 141; 229; 174;
   154; 228; 185; 137; 32; 40; 230; 155; 191; 230; 141; 162; 230; 151; 160; 230; 179; 149; 229; 134; 141; 230; 155;
   191; 230; 141; 162; 41; 32; 32; 32; 10; 35; 32; 229; 174; 143; 44; 229; 143; 152; 233; 135; 143; 32; 233; 128; 154;
   229; 184; 184; 228; 184; 186; 231; 172; 166; 229; 143; 183; 229; 144; 141; 43; 229; 173; 151; 233; 157; 162; 233;
   135; 143; 32; 231; 148; 168; 230; 157; 165; 229; 174; 154; 228; 185; 137; 229; 156; 168; 233; 154; 143; 229; 144;
   142; 233; 135; 141; 229; 164; 141; 228; 189; 191; 231; 148; 168; 231; 154; 132; 230; 149; 176; 229; 173; 151; 231;
   177; 187; 231; 188; 150; 229; 143; 183; 32; 99; 97; 116; 101; 103; 111; 114; 121; 44; 32; 105; 110; 100; 101; 110;
   116; 105; 102; 121; 44; 32; 109; 97; 115; 107; 231; 173; 137; 32; 32; 10; 10; 10; 10; 45; 32; 100; 101; 102; 105;
   110; 101; 58; 32; 76; 73; 83; 84; 95; 95; 95; 95; 95; 95; 32; 48; 44; 49; 44; 50; 44; 51; 32; 32; 32; 35; 32; 117;
   115; 101; 100; 32; 108; 105; 107; 101; 32; 99; 45; 115; 116; 121; 108; 101; 59; 32; 32; 119; 97; 114; 110; 58; 32;
   100; 101; 102; 32; 110; 97; 109; 101; 32; 108; 101; 110; 32; 109; 117; 115; 116; 32; 98; 105; 103; 103; 101; 114;
   32; 116; 104; 97; 110; 32; 99; 111; 110; 116; 101; 110; 116; 46; 32; 32; 32; 32; 10; 45; 32; 100; 101; 102; 58; 32;
   69; 77; 80; 84; 89; 95; 95; 95; 95; 95; 95; 32; 32; 32; 32; 10; 10; 45; 32; 118; 97; 114; 58; 32; 105; 100; 32; 61;
   32; 50; 51; 52; 10; 45; 32; 118; 97; 114; 58; 32; 105; 100; 48; 32; 61; 32; 48; 44; 32; 105; 100; 49; 32; 61; 49;
   32; 32; 32; 32; 35; 32; 117; 115; 101; 32; 118; 97; 114; 32; 36; 105; 100; 48; 32; 32; 111; 114; 32; 36; 123; 105;
   100; 48; 125; 32; 32; 10; 45; 32; 118; 97; 114; 58; 32; 123; 107; 101; 121; 61; 34; 115; 115; 115; 34; 44; 32; 118;
   97; 108; 61; 57; 57; 57; 125; 32; 32; 32; 10; 10; 10; 10; 35; 32; 45; 32; 115; 104; 109; 95; 107; 101; 121; 58; 32;
   51; 51; 51; 50; 49; 50; 51; 49; 10; 35; 32; 45; 32; 104; 111; 116; 95; 117; 112; 100; 97; 116; 101; 58; 91; 116;
   114; 117; 101; 93; 91; 102; 97; 108; 115; 101; 93; 10; 35; 32; 45; 32; 108; 111; 103; 103; 101; 114; 95; 110; 97;
   109; 101; 58; 32; 115; 116; 114; 105; 110; 103; 32; 32; 35; 32; 108; 111; 103; 32; 99; 111; 110; 116; 101; 110;
   116; 32; 112; 114; 101; 102; 105; 120; 32; 34; 76; 79; 71; 95; 80; 82; 69; 70; 73; 88; 95; 78; 65; 77; 69; 34; 32;
   10; 35; 32; 45; 32; 108; 111; 103; 103; 101; 114; 95; 100; 101; 115; 99; 58; 32; 115; 116; 114; 105; 110; 103; 32;
   32; 35; 32; 108; 111; 103; 32; 99; 111; 110; 116; 101; 110; 116; 32; 112; 114; 101; 102; 105; 120; 32; 34; 76; 79;
   71; 95; 80; 82; 69; 70; 73; 88; 95; 68; 69; 83; 67; 34; 32; 10; 32; 45; 32; 99; 104; 97; 110; 110; 101; 108; 58;
   32; 48; 10; 32; 32; 32; 32; 115; 121; 110; 99; 58; 32; 97; 115; 121; 110; 99; 32; 32; 10; 32; 32; 32; 32; 35; 115;
   121; 110; 99; 58; 32; 91; 97; 115; 121; 110; 99; 93; 91; 115; 121; 110; 99; 93; 91; 65; 83; 89; 78; 67; 93; 91; 83;
   89; 78; 67; 93; 10; 32; 32; 32; 32; 35; 112; 114; 105; 111; 114; 105; 116; 121; 58; 91; 116; 114; 97; 99; 101; 93;
   91; 100; 101; 98; 117; 103; 93; 91; 105; 110; 102; 111; 93; 91; 119; 97; 114; 110; 93; 91; 101; 114; 114; 111; 114;
   93; 91; 97; 108; 97; 114; 109; 93; 91; 102; 97; 116; 97; 108; 93; 10; 32; 32; 32; 32; 35; 99; 97; 116; 101; 103;
   111; 114; 121; 58; 32; 105; 100; 10; 32; 32; 32; 32; 35; 99; 97; 116; 101; 103; 111; 114; 121; 95; 101; 120; 116;
   101; 110; 100; 58; 32; 99; 111; 117; 110; 116; 10; 32; 32; 32; 32; 35; 99; 97; 116; 101; 103; 111; 114; 121; 95;
   119; 109; 97; 115; 107; 58; 32; 50; 53; 53; 32; 40; 119; 104; 105; 116; 101; 32; 109; 97; 115; 107; 41; 10; 32; 32;
   32; 32; 35; 99; 97; 116; 101; 103; 111; 114; 121; 95; 119; 108; 105; 115; 116; 58; 32; 123; 50; 44; 51; 44; 52; 51;
   125; 32; 40; 119; 104; 105; 116; 101; 32; 108; 105; 115; 116; 41; 10; 32; 32; 32; 32; 35; 99; 97; 116; 101; 103;
   111; 114; 121; 95; 98; 109; 97; 115; 107; 58; 32; 50; 53; 53; 32; 40; 98; 108; 97; 99; 107; 32; 109; 97; 115; 107;
   41; 10; 32; 32; 32; 32; 35; 99; 97; 116; 101; 103; 111; 114; 121; 95; 98; 108; 105; 115; 116; 58; 32; 123; 49; 44;
   50; 51; 44; 52; 125; 32; 40; 98; 108; 97; 99; 107; 32; 108; 105; 115; 116; 41; 10; 32; 32; 32; 32; 35; 105; 100;
   101; 110; 116; 105; 102; 121; 58; 32; 105; 100; 10; 32; 32; 32; 32; 35; 105; 100; 101; 110; 116; 105; 102; 121; 95;
   101; 120; 116; 101; 110; 100; 58; 32; 99; 111; 117; 110; 116; 10; 32; 32; 32; 32; 35; 105; 100; 101; 110; 116; 105;
   102; 121; 95; 119; 109; 97; 115; 107; 58; 32; 50; 53; 53; 32; 40; 119; 104; 105; 116; 101; 32; 109; 97; 115; 107;
   41; 10; 32; 32; 32; 32; 35; 105; 100; 101; 110; 116; 105; 102; 121; 95; 119; 108; 105; 115; 116; 58; 32; 123; 50;
   44; 51; 44; 52; 51; 125; 32; 40; 119; 104; 105; 116; 101; 32; 108; 105; 115; 116; 41; 10; 32; 32; 32; 32; 35; 105;
   100; 101; 110; 116; 105; 102; 121; 95; 98; 109; 97; 115; 107; 58; 32; 50; 53; 53; 32; 40; 98; 108; 97; 99; 107; 32;
   109; 97; 115; 107; 41; 10; 32; 32; 32; 32; 35; 105; 100; 101; 110; 116; 105; 102; 121; 95; 98; 108; 105; 115; 116;
   58; 32; 123; 49; 44; 50; 51; 44; 52; 125; 32; 40; 98; 108; 97; 99; 107; 32; 108; 105; 115; 116; 41; 10; 32; 32; 32;
   32; 45; 32; 100; 101; 118; 105; 99; 101; 58; 32; 48; 10; 32; 32; 32; 32; 32; 32; 32; 32; 100; 105; 115; 97; 98;
   108; 101; 58; 32; 102; 97; 108; 115; 101; 10; 32; 32; 32; 32; 32; 32; 32; 32; 35; 100; 105; 115; 97; 98; 108; 101;
   58; 32; 91; 102; 97; 108; 115; 101; 93; 91; 116; 114; 117; 101; 93; 91; 70; 65; 76; 83; 69; 93; 91; 84; 82; 85; 69;
   93; 10; 32; 32; 32; 32; 32; 32; 32; 32; 35; 112; 114; 105; 111; 114; 105; 116; 121; 58; 91; 116; 114; 97; 99; 101;
   93; 91; 100; 101; 98; 117; 103; 93; 91; 105; 110; 102; 111; 93; 91; 119; 97; 114; 110; 93; 91; 101; 114; 114; 111;
   114; 93; 91; 97; 108; 97; 114; 109; 93; 91; 102; 97; 116; 97; 108; 93; 10; 32; 32; 32; 32; 32; 32; 32; 32; 35; 99;
   97; 116; 101; 103; 111; 114; 121; 58; 32; 105; 100; 10; 32; 32; 32; 32; 32; 32; 32; 32; 35; 99; 97; 116; 101; 103;
   111; 114; 121; 95; 101; 120; 116; 101; 110; 100; 58; 32; 99; 111; 117; 110; 116; 10; 32; 32; 32; 32; 32; 32; 32;
   32; 35; 99; 97; 116; 101; 103; 111; 114; 121; 95; 119; 109; 97; 115; 107; 58; 32; 50; 53; 53; 32; 40; 119; 104;
   105; 116; 101; 32; 109; 97; 115; 107; 41; 10; 32; 32; 32; 32; 32; 32; 32; 32; 35; 99; 97; 116; 101; 103; 111; 114;
   121; 95; 119; 108; 105; 115; 116; 58; 32; 123; 50; 45; 51; 44; 52; 51; 125; 32; 40; 119; 104; 105; 116; 101; 32;
   108; 105; 115; 116; 41; 10; 32; 32; 32; 32; 32; 32; 32; 32; 35; 99; 97; 116; 101; 103; 111; 114; 121; 95; 98; 109;
   97; 115; 107; 58; 32; 50; 53; 53; 32; 40; 98; 108; 97; 99; 107; 32; 109; 97; 115; 107; 41; 10; 32; 32; 32; 32; 32;
   32; 32; 32; 35; 99; 97; 116; 101; 103; 111; 114; 121; 95; 98; 108; 105; 115; 116; 58; 32; 123; 49; 44; 50; 51; 44;
   52; 45; 53; 125; 32; 40; 98; 108; 97; 99; 107; 32; 108; 105; 115; 116; 41; 10; 32; 32; 32; 32; 32; 32; 32; 32; 35;
   105; 100; 101; 110; 116; 105; 102; 121; 58; 32; 105; 100; 10; 32; 32; 32; 32; 32; 32; 32; 32; 35; 105; 100; 101;
   110; 116; 105; 102; 121; 95; 101; 120; 116; 101; 110; 100; 58; 32; 99; 111; 117; 110; 116; 10; 32; 32; 32; 32; 32;
   32; 32; 32; 35; 105; 100; 101; 110; 116; 105; 102; 121; 95; 119; 109; 97; 115; 107; 58; 32; 50; 53; 53; 32; 40;
   119; 104; 105; 116; 101; 32; 109; 97; 115; 107; 41; 10; 32; 32; 32; 32; 32; 32; 32; 32; 35; 105; 100; 101; 110;
   116; 105; 102; 121; 95; 119; 108; 105; 115; 116; 58; 32; 123; 50; 45; 51; 44; 52; 51; 125; 32; 40; 119; 104; 105;
   116; 101; 32; 108; 105; 115; 116; 41; 10; 32; 32; 32; 32; 32; 32; 32; 32; 35; 105; 100; 101; 110; 116; 105; 102;
   121; 95; 98; 109; 97; 115; 107; 58; 32; 50; 53; 53; 32; 40; 98; 108; 97; 99; 107; 32; 109; 97; 115; 107; 41; 10;
   32; 32; 32; 32; 32; 32; 32; 32; 35; 105; 100; 101; 110; 116; 105; 102; 121; 95; 98; 108; 105; 115; 116; 58; 32;
   123; 49; 44; 50; 51; 44; 52; 125; 32; 40; 98; 108; 97; 99; 107; 32; 108; 105; 115; 116; 41; 10; 32; 32; 32; 32; 32;
   32; 32; 32; 111; 117; 116; 95; 116; 121; 112; 101; 58; 32; 102; 105; 108; 101; 10; 32; 32; 32; 32; 32; 32; 32; 32;
   35; 111; 117; 116; 95; 116; 121; 112; 101; 58; 91; 102; 105; 108; 101; 93; 91; 110; 117; 108; 108; 93; 91; 117;
   100; 112; 93; 91; 115; 99; 114; 101; 101; 110; 93; 91; 118; 105; 114; 116; 117; 97; 108; 93; 10; 32; 32; 32; 32;
   32; 32; 32; 32; 102; 105; 108; 101; 58; 32; 34; 36; 80; 78; 65; 77; 69; 34; 32; 32; 35; 105; 110; 32; 102; 105;
   108; 101; 32; 116; 121; 112; 101; 32; 105; 116; 39; 115; 32; 108; 111; 103; 32; 102; 105; 108; 101; 32; 110; 97;
   109; 101; 10; 32; 32; 32; 32; 32; 32; 32; 32; 112; 97; 116; 104; 58; 32; 46; 47; 32; 35; 105; 110; 32; 102; 105;
   108; 101; 32; 116; 121; 112; 101; 32; 105; 116; 39; 115; 32; 108; 111; 103; 32; 102; 105; 108; 101; 32; 112; 97;
   116; 104; 32; 32; 10; 32; 32; 32; 32; 32; 32; 32; 32; 114; 111; 108; 108; 98; 97; 99; 107; 58; 32; 52; 32; 35; 105;
   110; 32; 102; 105; 108; 101; 32; 116; 121; 112; 101; 32; 105; 116; 39; 115; 32; 116; 104; 105; 115; 32; 100; 101;
   118; 105; 99; 101; 32; 108; 111; 103; 32; 102; 105; 108; 101; 32; 114; 111; 108; 108; 98; 97; 99; 107; 32; 99; 111;
   117; 110; 116; 46; 32; 32; 32; 10; 32; 32; 32; 32; 32; 32; 32; 32; 108; 105; 109; 105; 116; 95; 115; 105; 122; 101;
   58; 32; 49; 48; 48; 32; 109; 32; 35; 105; 110; 32; 102; 105; 108; 101; 32; 116; 121; 112; 101; 32; 105; 116; 39;
   115; 32; 111; 110; 101; 32; 108; 111; 103; 32; 102; 105; 108; 101; 32; 108; 105; 109; 105; 116; 32; 115; 105; 122;
   101; 32; 32; 10; 32; 32; 32; 32; 32; 32; 32; 32; 35; 115; 116; 117; 102; 102; 95; 117; 112; 58; 32; 91; 116; 114;
   117; 101; 93; 91; 102; 97; 108; 115; 101; 93; 32; 32; 35; 105; 110; 32; 102; 105; 108; 101; 32; 116; 121; 112; 101;
   32; 105; 116; 39; 115; 32; 39; 102; 97; 108; 115; 101; 39; 32; 119; 105; 108; 108; 32; 114; 111; 108; 108; 98; 97;
   99; 107; 32; 111; 108; 100; 32; 102; 105; 108; 101; 32; 119; 104; 101; 110; 32; 114; 101; 111; 112; 101; 110; 32;
   108; 111; 103; 103; 101; 114; 46; 32; 32; 116; 104; 101; 32; 39; 116; 114; 117; 101; 39; 32; 119; 105; 108; 108;
   32; 97; 112; 112; 101; 110; 100; 32; 101; 120; 105; 115; 116; 32; 108; 111; 103; 32; 102; 105; 108; 101; 32; 115;
   116; 105; 108; 108; 32; 114; 101; 97; 99; 104; 32; 39; 108; 105; 109; 105; 116; 95; 115; 105; 122; 101; 39; 32; 32;
   10; 32; 32; 32; 32; 32; 32; 32; 32; 35; 117; 100; 112; 95; 97; 100; 100; 114; 58; 32; 91; 105; 112; 58; 112; 111;
   114; 116; 93; 32; 32; 35; 32; 105; 110; 32; 117; 100; 112; 32; 116; 121; 112; 101; 32; 32; 32; 32; 32; 10; 32; 32;
   32; 32; 45; 32; 100; 101; 118; 105; 99; 101; 58; 32; 49; 10; 32; 32; 32; 32; 32; 32; 32; 32; 100; 105; 115; 97; 98;
   108; 101; 58; 32; 102; 97; 108; 115; 101; 10; 32; 32; 32; 32; 32; 32; 32; 32; 111; 117; 116; 95; 116; 121; 112;
   101; 58; 32; 102; 105; 108; 101; 10; 32; 32; 32; 32; 32; 32; 32; 32; 112; 114; 105; 111; 114; 105; 116; 121; 58;
   32; 101; 114; 114; 111; 114; 10; 32; 32; 32; 32; 32; 32; 32; 32; 102; 105; 108; 101; 58; 32; 34; 36; 80; 78; 65;
   77; 69; 95; 101; 114; 114; 111; 114; 34; 10; 32; 32; 32; 32; 32; 32; 32; 32; 114; 111; 108; 108; 98; 97; 99; 107;
   58; 32; 52; 10; 32; 32; 32; 32; 32; 32; 32; 32; 108; 105; 109; 105; 116; 95; 115; 105; 122; 101; 58; 32; 49; 48;
   48; 32; 109; 32; 35; 111; 110; 108; 121; 32; 115; 117; 112; 112; 111; 114; 116; 32; 77; 32; 98; 121; 116; 101; 10;
   32; 32; 32; 32; 45; 32; 100; 101; 118; 105; 99; 101; 58; 32; 50; 10; 32; 32; 32; 32; 32; 32; 32; 32; 100; 105; 115;
   97; 98; 108; 101; 58; 32; 102; 97; 108; 115; 101; 10; 32; 32; 32; 32; 32; 32; 32; 32; 111; 117; 116; 95; 116; 121;
   112; 101; 58; 32; 115; 99; 114; 101; 101; 110; 10; 32; 32; 32; 32; 32; 32; 32; 32; 112; 114; 105; 111; 114; 105;
   116; 121; 58; 32; 105; 110; 102; 111; 10; 32; 45; 32; 99; 104; 97; 110; 110; 101; 108; 58; 32; 49; 10; 32; 32; 32;
   32; 115; 121; 110; 99; 58; 32; 115; 121; 110; 99; 10; 32; 32; 32; 32; 45; 32; 100; 101; 118; 105; 99; 101; 58; 32;
   48; 10; 32; 32; 32; 32; 32; 32; 32; 32; 100; 105; 115; 97; 98; 108; 101; 58; 32; 102; 97; 108; 115; 101; 10; 32;
   32; 32; 32; 32; 32; 32; 32; 111; 117; 116; 95; 116; 121; 112; 101; 58; 32; 102; 105; 108; 101; 10; 32; 32; 32; 32;
   32; 32; 32; 32; 102; 105; 108; 101; 58; 32; 34; 36; 80; 78; 65; 77; 69; 95; 115; 121; 110; 99; 34; 10; 32; 32; 32;
   32; 32; 32; 32; 32; 114; 111; 108; 108; 98; 97; 99; 107; 58; 32; 52; 10; 32; 32; 32; 32; 32; 32; 32; 32; 108; 105;
   109; 105; 116; 95; 115; 105; 122; 101; 58; 32; 49; 48; 48; 32; 109; 32; 35; 111; 110; 108; 121; 32; 115; 117; 112;
   112; 111; 114; 116; 32; 77; 32; 98; 121; 116; 101; 10; 32; 32; 32; 32; 45; 32; 100; 101; 118; 105; 99; 101; 58; 32;
   49; 10; 32; 32; 32; 32; 32; 32; 32; 32; 100; 105; 115; 97; 98; 108; 101; 58; 32; 102; 97; 108; 115; 101; 10; 32;
   32; 32; 32; 32; 32; 32; 32; 111; 117; 116; 95; 116; 121; 112; 101; 58; 32; 102; 105; 108; 101; 10; 32; 32; 32; 32;
   32; 32; 32; 32; 112; 114; 105; 111; 114; 105; 116; 121; 58; 32; 105; 110; 102; 111; 10; 32; 32; 32; 32; 32; 32; 32;
   32; 102; 105; 108; 101; 58; 32; 34; 36; 80; 78; 65; 77; 69; 95; 115; 121; 110; 99; 95; 105; 110; 102; 111; 34; 10;
   32; 32; 32; 32; 32; 32; 32; 32; 114; 111; 108; 108; 98; 97; 99; 107; 58; 32; 52; 10; 32; 32; 32; 32; 32; 32; 32;
   32; 108; 105; 109; 105; 116; 95; 115; 105; 122; 101; 58; 32; 49; 48; 48; 32; 109; 32; 35; 111; 110; 108; 121; 32;
   115; 117; 112; 112; 111; 114; 116; 32; 77; 32; 98; 121; 116; 101; 10; 32; 32; 32; 32; 45; 32; 100; 101; 118; 105;
   99; 101; 58; 32; 50; 10; 32; 32; 32; 32; 32; 32; 32; 32; 100; 105; 115; 97; 98; 108; 101; 58; 32; 102; 97; 108;
   115; 101; 10; 32; 32; 32; 32; 32; 32; 32; 32; 111; 117; 116; 95; 116; 121; 112; 101; 58; 32; 115; 99; 114; 101;
   101; 110; 10; 32; 32; 32; 32; 32; 32; 32; 32; 112; 114; 105; 111; 114; 105; 116; 121; 58; 32; 105; 110; 102; 111;
   32; 10; 10].
