(** The files of tests/resources that the unit tests of the repository work with.
    Written by tools/testfiles.py. *)
From Coq Require Import List ZArith.
From Verif Require Import Base M_Front.
Import ListNotations.
Open Scope Z_scope.

(** tests/resources/char.def *)
Definition test_char_def : bytes :=
  [48; 120; 48; 48; 51; 48; 46; 46; 48; 120; 48; 48; 51; 57; 32; 78; 85; 77; 69; 82; 73; 67; 32; 32; 35; 48; 45; 57; 10; 48; 120; 48; 48; 52; 49; 46; 46; 48; 120; 48; 48; 53; 65; 32; 65; 76; 80; 72; 65; 32; 32; 32; 32; 35; 65; 45; 90; 10; 48; 120;
  48; 48; 54; 49; 46; 46; 48; 120; 48; 48; 55; 65; 32; 65; 76; 80; 72; 65; 32; 32; 32; 32; 35; 97; 45; 122; 10; 48; 120; 48; 48; 67; 48; 46; 46; 48; 120; 48; 48; 70; 70; 32; 65; 76; 80; 72; 65; 32; 32; 35; 32; 76; 97; 116; 105; 110; 32; 49; 32; 35;
  195; 128; 45; 62; 195; 191; 10; 48; 120; 51; 48; 52; 49; 46; 46; 48; 120; 51; 48; 57; 70; 32; 32; 72; 73; 82; 65; 71; 65; 78; 65; 10; 48; 120; 51; 48; 65; 49; 46; 46; 48; 120; 51; 48; 70; 70; 32; 32; 75; 65; 84; 65; 75; 65; 78; 65; 10; 48; 120; 51;
  48; 65; 49; 32; 32; 32; 32; 32; 32; 32; 32; 32; 32; 78; 79; 79; 79; 86; 66; 79; 87; 10; 48; 120; 70; 70; 54; 54; 46; 46; 48; 120; 70; 70; 57; 68; 32; 32; 75; 65; 84; 65; 75; 65; 78; 65; 10; 48; 120; 70; 70; 57; 69; 46; 46; 48; 120; 70; 70; 57;
  70; 32; 32; 75; 65; 84; 65; 75; 65; 78; 65; 10; 48; 120; 50; 69; 56; 48; 46; 46; 48; 120; 50; 69; 70; 51; 32; 32; 75; 65; 78; 74; 73; 32; 35; 32; 67; 74; 75; 32; 82; 97; 105; 100; 99; 97; 108; 115; 32; 83; 117; 112; 112; 108; 101; 109; 101; 110; 116; 10;
  48; 120; 50; 70; 48; 48; 46; 46; 48; 120; 50; 70; 68; 53; 32; 32; 75; 65; 78; 74; 73; 10; 48; 120; 51; 48; 48; 53; 32; 32; 32; 32; 32; 32; 32; 32; 32; 32; 75; 65; 78; 74; 73; 10; 48; 120; 51; 48; 48; 55; 32; 32; 32; 32; 32; 32; 32; 32; 32; 32;
  75; 65; 78; 74; 73; 10; 48; 120; 51; 52; 48; 48; 46; 46; 48; 120; 52; 68; 66; 53; 32; 32; 75; 65; 78; 74; 73; 32; 35; 32; 67; 74; 75; 32; 85; 110; 105; 102; 105; 101; 100; 32; 73; 100; 101; 111; 103; 114; 97; 112; 104; 115; 32; 69; 120; 116; 101; 110; 116; 105;
  111; 110; 10; 48; 120; 52; 69; 48; 48; 46; 46; 48; 120; 57; 70; 65; 53; 32; 32; 75; 65; 78; 74; 73; 10; 48; 120; 70; 57; 48; 48; 46; 46; 48; 120; 70; 65; 50; 68; 32; 32; 75; 65; 78; 74; 73; 10; 48; 120; 70; 65; 51; 48; 46; 46; 48; 120; 70; 65; 54;
  65; 32; 32; 75; 65; 78; 74; 73; 10; 48; 120; 70; 70; 49; 48; 46; 46; 48; 120; 70; 70; 49; 57; 32; 78; 85; 77; 69; 82; 73; 67; 10; 48; 120; 70; 70; 50; 49; 46; 46; 48; 120; 70; 70; 51; 65; 32; 65; 76; 80; 72; 65; 10; 48; 120; 70; 70; 52; 49; 46;
  46; 48; 120; 70; 70; 53; 65; 32; 65; 76; 80; 72; 65; 10].
(** tests/resources/unk.def *)
Definition test_unk_def : bytes :=
  [68; 69; 70; 65; 85; 76; 84; 44; 53; 57; 54; 56; 44; 53; 57; 54; 56; 44; 51; 56; 53; 55; 44; 232; 163; 156; 229; 138; 169; 232; 168; 152; 229; 143; 183; 44; 228; 184; 128; 232; 136; 172; 44; 42; 44; 42; 44; 42; 44; 42; 10; 83; 80; 65; 67; 69; 44; 53; 57; 54;
  54; 44; 53; 57; 54; 54; 44; 54; 48; 53; 54; 44; 231; 169; 186; 231; 153; 189; 44; 42; 44; 42; 44; 42; 44; 42; 44; 42; 10; 75; 65; 78; 74; 73; 44; 53; 49; 51; 57; 44; 53; 49; 51; 57; 44; 49; 52; 54; 53; 55; 44; 229; 144; 141; 232; 169; 158; 44; 230; 153;
  174; 233; 128; 154; 229; 144; 141; 232; 169; 158; 44; 228; 184; 128; 232; 136; 172; 44; 42; 44; 42; 44; 42; 10; 75; 65; 78; 74; 73; 44; 53; 49; 50; 57; 44; 53; 49; 50; 57; 44; 49; 55; 51; 48; 56; 44; 229; 144; 141; 232; 169; 158; 44; 230; 153; 174; 233; 128; 154; 229;
  144; 141; 232; 169; 158; 44; 227; 130; 181; 229; 164; 137; 229; 143; 175; 232; 131; 189; 44; 42; 44; 42; 44; 42; 10; 75; 65; 78; 74; 73; 44; 52; 55; 56; 53; 44; 52; 55; 56; 53; 44; 49; 56; 49; 56; 49; 44; 229; 144; 141; 232; 169; 158; 44; 229; 155; 186; 230; 156; 137;
  229; 144; 141; 232; 169; 158; 44; 228; 184; 128; 232; 136; 172; 44; 42; 44; 42; 44; 42; 10; 75; 65; 78; 74; 73; 44; 52; 55; 56; 55; 44; 52; 55; 56; 55; 44; 49; 56; 48; 56; 54; 44; 229; 144; 141; 232; 169; 158; 44; 229; 155; 186; 230; 156; 137; 229; 144; 141; 232; 169;
  158; 44; 228; 186; 186; 229; 144; 141; 44; 228; 184; 128; 232; 136; 172; 44; 42; 44; 42; 10; 75; 65; 78; 74; 73; 44; 52; 55; 57; 49; 44; 52; 55; 57; 49; 44; 49; 57; 49; 57; 56; 44; 229; 144; 141; 232; 169; 158; 44; 229; 155; 186; 230; 156; 137; 229; 144; 141; 232; 169;
  158; 44; 229; 156; 176; 229; 144; 141; 44; 228; 184; 128; 232; 136; 172; 44; 42; 44; 42; 10; 83; 89; 77; 66; 79; 76; 44; 53; 49; 50; 57; 44; 53; 49; 50; 57; 44; 49; 55; 48; 57; 52; 44; 229; 144; 141; 232; 169; 158; 44; 230; 153; 174; 233; 128; 154; 229; 144; 141; 232;
  169; 158; 44; 227; 130; 181; 229; 164; 137; 229; 143; 175; 232; 131; 189; 44; 42; 44; 42; 44; 42; 10; 78; 85; 77; 69; 82; 73; 67; 44; 52; 55; 57; 52; 44; 52; 55; 57; 52; 44; 49; 50; 52; 53; 48; 44; 229; 144; 141; 232; 169; 158; 44; 230; 149; 176; 232; 169; 158; 44;
  42; 44; 42; 44; 42; 44; 42; 10; 65; 76; 80; 72; 65; 44; 53; 49; 51; 57; 44; 53; 49; 51; 57; 44; 49; 49; 54; 51; 51; 44; 229; 144; 141; 232; 169; 158; 44; 230; 153; 174; 233; 128; 154; 229; 144; 141; 232; 169; 158; 44; 228; 184; 128; 232; 136; 172; 44; 42; 44; 42;
  44; 42; 10; 65; 76; 80; 72; 65; 44; 52; 55; 56; 53; 44; 52; 55; 56; 53; 44; 49; 51; 54; 50; 48; 44; 229; 144; 141; 232; 169; 158; 44; 229; 155; 186; 230; 156; 137; 229; 144; 141; 232; 169; 158; 44; 228; 184; 128; 232; 136; 172; 44; 42; 44; 42; 44; 42; 10; 65; 76;
  80; 72; 65; 44; 52; 55; 56; 55; 44; 52; 55; 56; 55; 44; 49; 52; 50; 50; 56; 44; 229; 144; 141; 232; 169; 158; 44; 229; 155; 186; 230; 156; 137; 229; 144; 141; 232; 169; 158; 44; 228; 186; 186; 229; 144; 141; 44; 228; 184; 128; 232; 136; 172; 44; 42; 44; 42; 10; 65; 76;
  80; 72; 65; 44; 52; 55; 57; 49; 44; 52; 55; 57; 49; 44; 49; 53; 55; 57; 51; 44; 229; 144; 141; 232; 169; 158; 44; 229; 155; 186; 230; 156; 137; 229; 144; 141; 232; 169; 158; 44; 229; 156; 176; 229; 144; 141; 44; 228; 184; 128; 232; 136; 172; 44; 42; 44; 42; 10; 65; 76;
  80; 72; 65; 44; 53; 54; 56; 55; 44; 53; 54; 56; 55; 44; 49; 53; 50; 52; 54; 44; 230; 132; 159; 229; 139; 149; 232; 169; 158; 44; 228; 184; 128; 232; 136; 172; 44; 42; 44; 42; 44; 42; 44; 42; 10; 72; 73; 82; 65; 71; 65; 78; 65; 44; 53; 49; 51; 57; 44; 53;
  49; 51; 57; 44; 49; 54; 48; 49; 50; 44; 229; 144; 141; 232; 169; 158; 44; 230; 153; 174; 233; 128; 154; 229; 144; 141; 232; 169; 158; 44; 228; 184; 128; 232; 136; 172; 44; 42; 44; 42; 44; 42; 10; 72; 73; 82; 65; 71; 65; 78; 65; 44; 53; 49; 50; 57; 44; 53; 49; 50;
  57; 44; 50; 48; 48; 49; 50; 44; 229; 144; 141; 232; 169; 158; 44; 230; 153; 174; 233; 128; 154; 229; 144; 141; 232; 169; 158; 44; 227; 130; 181; 229; 164; 137; 229; 143; 175; 232; 131; 189; 44; 42; 44; 42; 44; 42; 10; 72; 73; 82; 65; 71; 65; 78; 65; 44; 52; 55; 56; 53;
  44; 52; 55; 56; 53; 44; 49; 56; 50; 56; 50; 44; 229; 144; 141; 232; 169; 158; 44; 229; 155; 186; 230; 156; 137; 229; 144; 141; 232; 169; 158; 44; 228; 184; 128; 232; 136; 172; 44; 42; 44; 42; 44; 42; 10; 72; 73; 82; 65; 71; 65; 78; 65; 44; 52; 55; 56; 55; 44; 52;
  55; 56; 55; 44; 49; 56; 50; 54; 57; 44; 229; 144; 141; 232; 169; 158; 44; 229; 155; 186; 230; 156; 137; 229; 144; 141; 232; 169; 158; 44; 228; 186; 186; 229; 144; 141; 44; 228; 184; 128; 232; 136; 172; 44; 42; 44; 42; 10; 72; 73; 82; 65; 71; 65; 78; 65; 44; 52; 55; 57;
  49; 44; 52; 55; 57; 49; 44; 50; 48; 52; 55; 52; 44; 229; 144; 141; 232; 169; 158; 44; 229; 155; 186; 230; 156; 137; 229; 144; 141; 232; 169; 158; 44; 229; 156; 176; 229; 144; 141; 44; 228; 184; 128; 232; 136; 172; 44; 42; 44; 42; 10; 72; 73; 82; 65; 71; 65; 78; 65; 44;
  53; 54; 56; 55; 44; 53; 54; 56; 55; 44; 49; 55; 55; 56; 54; 44; 230; 132; 159; 229; 139; 149; 232; 169; 158; 44; 228; 184; 128; 232; 136; 172; 44; 42; 44; 42; 44; 42; 44; 42; 10; 75; 65; 84; 65; 75; 65; 78; 65; 44; 53; 49; 51; 57; 44; 53; 49; 51; 57; 44;
  49; 48; 57; 56; 48; 44; 229; 144; 141; 232; 169; 158; 44; 230; 153; 174; 233; 128; 154; 229; 144; 141; 232; 169; 158; 44; 228; 184; 128; 232; 136; 172; 44; 42; 44; 42; 44; 42; 10; 75; 65; 84; 65; 75; 65; 78; 65; 44; 53; 49; 50; 57; 44; 53; 49; 50; 57; 44; 49; 52;
  56; 48; 50; 44; 229; 144; 141; 232; 169; 158; 44; 230; 153; 174; 233; 128; 154; 229; 144; 141; 232; 169; 158; 44; 227; 130; 181; 229; 164; 137; 229; 143; 175; 232; 131; 189; 44; 42; 44; 42; 44; 42; 10; 75; 65; 84; 65; 75; 65; 78; 65; 44; 52; 55; 56; 53; 44; 52; 55; 56;
  53; 44; 49; 51; 52; 53; 49; 44; 229; 144; 141; 232; 169; 158; 44; 229; 155; 186; 230; 156; 137; 229; 144; 141; 232; 169; 158; 44; 228; 184; 128; 232; 136; 172; 44; 42; 44; 42; 44; 42; 10; 75; 65; 84; 65; 75; 65; 78; 65; 44; 52; 55; 56; 55; 44; 52; 55; 56; 55; 44;
  49; 51; 55; 53; 57; 44; 229; 144; 141; 232; 169; 158; 44; 229; 155; 186; 230; 156; 137; 229; 144; 141; 232; 169; 158; 44; 228; 186; 186; 229; 144; 141; 44; 228; 184; 128; 232; 136; 172; 44; 42; 44; 42; 10; 75; 65; 84; 65; 75; 65; 78; 65; 44; 52; 55; 57; 49; 44; 52; 55;
  57; 49; 44; 49; 52; 53; 53; 52; 44; 229; 144; 141; 232; 169; 158; 44; 229; 155; 186; 230; 156; 137; 229; 144; 141; 232; 169; 158; 44; 229; 156; 176; 229; 144; 141; 44; 228; 184; 128; 232; 136; 172; 44; 42; 44; 42; 10; 75; 65; 84; 65; 75; 65; 78; 65; 44; 53; 54; 56; 55;
  44; 53; 54; 56; 55; 44; 49; 53; 50; 55; 50; 44; 230; 132; 159; 229; 139; 149; 232; 169; 158; 44; 228; 184; 128; 232; 136; 172; 44; 42; 44; 42; 44; 42; 44; 42; 10; 75; 65; 78; 74; 73; 78; 85; 77; 69; 82; 73; 67; 44; 52; 55; 57; 52; 44; 52; 55; 57; 52; 44;
  49; 52; 49; 55; 48; 44; 229; 144; 141; 232; 169; 158; 44; 230; 149; 176; 232; 169; 158; 44; 42; 44; 42; 44; 42; 44; 42; 10; 71; 82; 69; 69; 75; 44; 53; 49; 51; 57; 44; 53; 49; 51; 57; 44; 49; 49; 48; 53; 49; 44; 229; 144; 141; 232; 169; 158; 44; 230; 153; 174;
  233; 128; 154; 229; 144; 141; 232; 169; 158; 44; 228; 184; 128; 232; 136; 172; 44; 42; 44; 42; 44; 42; 10; 71; 82; 69; 69; 75; 44; 52; 55; 56; 53; 44; 52; 55; 56; 53; 44; 49; 51; 51; 53; 51; 44; 229; 144; 141; 232; 169; 158; 44; 229; 155; 186; 230; 156; 137; 229; 144;
  141; 232; 169; 158; 44; 228; 184; 128; 232; 136; 172; 44; 42; 44; 42; 44; 42; 10; 71; 82; 69; 69; 75; 44; 52; 55; 56; 55; 44; 52; 55; 56; 55; 44; 49; 51; 54; 55; 49; 44; 229; 144; 141; 232; 169; 158; 44; 229; 155; 186; 230; 156; 137; 229; 144; 141; 232; 169; 158; 44;
  228; 186; 186; 229; 144; 141; 44; 228; 184; 128; 232; 136; 172; 44; 42; 44; 42; 10; 71; 82; 69; 69; 75; 44; 52; 55; 57; 49; 44; 52; 55; 57; 49; 44; 49; 52; 56; 54; 50; 44; 229; 144; 141; 232; 169; 158; 44; 229; 155; 186; 230; 156; 137; 229; 144; 141; 232; 169; 158; 44;
  229; 156; 176; 229; 144; 141; 44; 228; 184; 128; 232; 136; 172; 44; 42; 44; 42; 10; 67; 89; 82; 73; 76; 76; 73; 67; 44; 53; 49; 51; 57; 44; 53; 49; 51; 57; 44; 49; 49; 49; 52; 48; 44; 229; 144; 141; 232; 169; 158; 44; 230; 153; 174; 233; 128; 154; 229; 144; 141; 232;
  169; 158; 44; 228; 184; 128; 232; 136; 172; 44; 42; 44; 42; 44; 42; 10; 67; 89; 82; 73; 76; 76; 73; 67; 44; 52; 55; 56; 53; 44; 52; 55; 56; 53; 44; 49; 51; 49; 55; 52; 44; 229; 144; 141; 232; 169; 158; 44; 229; 155; 186; 230; 156; 137; 229; 144; 141; 232; 169; 158;
  44; 228; 184; 128; 232; 136; 172; 44; 42; 44; 42; 44; 42; 10; 67; 89; 82; 73; 76; 76; 73; 67; 44; 52; 55; 56; 55; 44; 52; 55; 56; 55; 44; 49; 51; 52; 57; 53; 44; 229; 144; 141; 232; 169; 158; 44; 229; 155; 186; 230; 156; 137; 229; 144; 141; 232; 169; 158; 44; 228;
  186; 186; 229; 144; 141; 44; 228; 184; 128; 232; 136; 172; 44; 42; 44; 42; 10; 67; 89; 82; 73; 76; 76; 73; 67; 44; 52; 55; 57; 49; 44; 52; 55; 57; 49; 44; 49; 52; 55; 48; 48; 44; 229; 144; 141; 232; 169; 158; 44; 229; 155; 186; 230; 156; 137; 229; 144; 141; 232; 169;
  158; 44; 229; 156; 176; 229; 144; 141; 44; 228; 184; 128; 232; 136; 172; 44; 42; 44; 42; 10].
(** tests/resources/rewrite.def *)
Definition test_rewrite_def : bytes :=
  [35; 32; 105; 103; 110; 111; 114; 101; 32; 110; 111; 114; 109; 97; 108; 105; 122; 101; 32; 108; 105; 115; 116; 10; 226; 133; 162; 10; 226; 133; 178; 10; 226; 188; 188; 10; 10; 35; 32; 114; 101; 112; 108; 97; 99; 101; 32; 99; 104; 97; 114; 32; 108; 105; 115; 116; 10; 239; 189; 182;
  239; 190; 158; 9; 227; 130; 172; 10; 227; 130; 166; 227; 130; 155; 9; 227; 131; 180; 10].
(** tests/resources/joinnumeric/char.def *)
Definition numeric_char_def : bytes :=
  [35; 10; 35; 32; 32; 32; 74; 97; 112; 97; 110; 101; 115; 101; 32; 99; 104; 97; 114; 99; 116; 101; 114; 32; 99; 97; 116; 101; 103; 111; 114; 121; 32; 109; 97; 112; 10; 35; 10; 35; 32; 32; 32; 36; 73; 100; 58; 32; 99; 104; 97; 114; 46; 100; 101; 102; 32; 57; 32; 50;
  48; 49; 50; 45; 49; 50; 45; 49; 50; 32; 48; 52; 58; 49; 51; 58; 49; 53; 90; 32; 116; 111; 103; 105; 115; 111; 32; 36; 59; 10; 35; 10; 10; 35; 35; 35; 35; 35; 35; 35; 35; 35; 35; 35; 35; 35; 35; 35; 35; 35; 35; 35; 35; 35; 35; 35; 35; 35; 35; 35;
  35; 35; 35; 35; 35; 35; 35; 35; 35; 35; 35; 35; 35; 35; 35; 35; 35; 35; 35; 35; 35; 35; 35; 35; 35; 35; 35; 35; 35; 35; 35; 35; 35; 35; 35; 35; 35; 35; 35; 35; 35; 35; 35; 35; 35; 35; 35; 35; 35; 35; 35; 35; 35; 35; 35; 35; 10; 35; 32; 10;
  35; 32; 32; 67; 72; 65; 82; 65; 67; 84; 69; 82; 32; 67; 65; 84; 69; 71; 79; 82; 89; 32; 68; 69; 70; 73; 78; 73; 84; 73; 79; 78; 10; 35; 10; 35; 32; 32; 67; 65; 84; 69; 71; 79; 82; 89; 95; 78; 65; 77; 69; 32; 73; 78; 86; 79; 75; 69; 32; 71;
  82; 79; 85; 80; 32; 76; 69; 78; 71; 84; 72; 10; 35; 10; 35; 32; 32; 32; 45; 32; 67; 65; 84; 69; 71; 79; 82; 89; 95; 78; 65; 77; 69; 58; 32; 78; 97; 109; 101; 32; 111; 102; 32; 99; 97; 116; 101; 103; 111; 114; 121; 46; 32; 121; 111; 117; 32; 104; 97; 118;
  101; 32; 116; 111; 32; 100; 101; 102; 105; 110; 101; 32; 68; 69; 70; 65; 85; 76; 84; 32; 99; 108; 97; 115; 115; 46; 10; 35; 32; 32; 32; 45; 32; 73; 78; 86; 79; 75; 69; 58; 32; 49; 47; 48; 58; 32; 32; 32; 97; 108; 119; 97; 121; 115; 32; 105; 110; 118; 111; 107;
  101; 32; 117; 110; 107; 110; 111; 119; 110; 32; 119; 111; 114; 100; 32; 112; 114; 111; 99; 101; 115; 115; 105; 110; 103; 44; 32; 101; 118; 97; 110; 32; 119; 104; 101; 110; 32; 116; 104; 101; 32; 119; 111; 114; 100; 32; 99; 97; 110; 32; 98; 101; 32; 102; 111; 117; 110; 100; 32; 105;
  110; 32; 116; 104; 101; 32; 108; 101; 120; 105; 99; 111; 110; 10; 35; 32; 32; 32; 45; 32; 71; 82; 79; 85; 80; 58; 32; 32; 49; 47; 48; 58; 32; 32; 32; 109; 97; 107; 101; 32; 97; 32; 110; 101; 119; 32; 119; 111; 114; 100; 32; 98; 121; 32; 103; 114; 111; 117; 112; 105;
  110; 103; 32; 116; 104; 101; 32; 115; 97; 109; 101; 32; 99; 104; 114; 97; 99; 116; 101; 114; 32; 99; 97; 116; 101; 103; 111; 114; 121; 10; 35; 32; 32; 32; 45; 32; 76; 69; 78; 71; 84; 72; 58; 32; 110; 58; 32; 32; 32; 32; 32; 49; 32; 116; 111; 32; 110; 32; 108; 101;
  110; 103; 116; 104; 32; 110; 101; 119; 32; 119; 111; 114; 100; 115; 32; 97; 114; 101; 32; 97; 100; 100; 101; 100; 10; 35; 10; 68; 69; 70; 65; 85; 76; 84; 32; 32; 32; 32; 32; 32; 32; 32; 32; 48; 32; 49; 32; 48; 32; 32; 35; 32; 68; 69; 70; 65; 85; 76; 84; 32;
  105; 115; 32; 97; 32; 109; 97; 110; 100; 97; 116; 111; 114; 121; 32; 99; 97; 116; 101; 103; 111; 114; 121; 33; 10; 83; 80; 65; 67; 69; 32; 32; 32; 32; 32; 32; 32; 32; 32; 32; 32; 48; 32; 49; 32; 48; 32; 32; 10; 75; 65; 78; 74; 73; 32; 32; 32; 32; 32; 32;
  32; 32; 32; 32; 32; 48; 32; 48; 32; 50; 10; 83; 89; 77; 66; 79; 76; 32; 32; 32; 32; 32; 32; 32; 32; 32; 32; 49; 32; 49; 32; 48; 10; 78; 85; 77; 69; 82; 73; 67; 32; 32; 32; 32; 32; 32; 32; 32; 32; 49; 32; 49; 32; 48; 10; 65; 76; 80; 72; 65;
  32; 32; 32; 32; 32; 32; 32; 32; 32; 32; 32; 49; 32; 49; 32; 48; 10; 72; 73; 82; 65; 71; 65; 78; 65; 32; 32; 32; 32; 32; 32; 32; 32; 48; 32; 49; 32; 50; 10; 75; 65; 84; 65; 75; 65; 78; 65; 32; 32; 32; 32; 32; 32; 32; 32; 49; 32; 49; 32; 50;
  10; 75; 65; 78; 74; 73; 78; 85; 77; 69; 82; 73; 67; 32; 32; 32; 32; 48; 32; 49; 32; 48; 32; 32; 35; 99; 104; 97; 110; 103; 101; 32; 73; 78; 86; 79; 75; 69; 32; 49; 45; 62; 48; 10; 71; 82; 69; 69; 75; 32; 32; 32; 32; 32; 32; 32; 32; 32; 32; 32;
  49; 32; 49; 32; 48; 10; 67; 89; 82; 73; 76; 76; 73; 67; 32; 32; 32; 32; 32; 32; 32; 32; 49; 32; 49; 32; 48; 10; 10; 35; 35; 35; 35; 35; 35; 35; 35; 35; 35; 35; 35; 35; 35; 35; 35; 35; 35; 35; 35; 35; 35; 35; 35; 35; 35; 35; 35; 35; 35; 35;
  35; 35; 35; 35; 35; 35; 35; 35; 35; 35; 35; 35; 35; 35; 35; 35; 35; 35; 35; 35; 35; 35; 35; 35; 35; 35; 35; 35; 35; 35; 35; 35; 35; 35; 35; 35; 35; 35; 35; 35; 35; 35; 35; 35; 35; 35; 35; 35; 35; 35; 35; 35; 10; 35; 10; 35; 32; 67; 79; 68;
  69; 40; 85; 67; 83; 50; 41; 32; 84; 79; 32; 67; 65; 84; 69; 71; 79; 82; 89; 32; 77; 65; 80; 80; 73; 78; 71; 10; 35; 10; 10; 35; 32; 83; 80; 65; 67; 69; 10; 48; 120; 48; 48; 50; 48; 32; 83; 80; 65; 67; 69; 32; 32; 35; 32; 68; 79; 32; 78; 79;
  84; 32; 82; 69; 77; 79; 86; 69; 32; 84; 72; 73; 83; 32; 76; 73; 78; 69; 44; 32; 48; 120; 48; 48; 50; 48; 32; 105; 115; 32; 114; 101; 115; 101; 114; 118; 101; 100; 32; 102; 111; 114; 32; 83; 80; 65; 67; 69; 10; 10; 35; 32; 65; 83; 67; 73; 73; 10; 48; 120;
  48; 48; 51; 48; 46; 46; 48; 120; 48; 48; 51; 57; 32; 78; 85; 77; 69; 82; 73; 67; 32; 32; 35; 48; 45; 57; 10; 10; 35; 32; 75; 65; 78; 74; 73; 45; 78; 85; 77; 69; 82; 73; 67; 32; 40; 227; 128; 135; 32; 228; 184; 128; 32; 228; 186; 140; 32; 228; 184; 137;
  32; 229; 155; 155; 32; 228; 186; 148; 32; 229; 133; 173; 32; 228; 184; 131; 32; 229; 133; 171; 32; 228; 185; 157; 32; 229; 141; 129; 32; 231; 153; 190; 32; 229; 141; 131; 32; 228; 184; 135; 32; 229; 132; 132; 32; 229; 133; 134; 41; 10; 48; 120; 51; 48; 48; 55; 32; 75; 65; 78;
  74; 73; 78; 85; 77; 69; 82; 73; 67; 32; 75; 65; 78; 74; 73; 10; 48; 120; 52; 69; 48; 48; 32; 75; 65; 78; 74; 73; 78; 85; 77; 69; 82; 73; 67; 32; 75; 65; 78; 74; 73; 10; 48; 120; 52; 69; 56; 67; 32; 75; 65; 78; 74; 73; 78; 85; 77; 69; 82; 73;
  67; 32; 75; 65; 78; 74; 73; 10; 48; 120; 52; 69; 48; 57; 32; 75; 65; 78; 74; 73; 78; 85; 77; 69; 82; 73; 67; 32; 75; 65; 78; 74; 73; 10; 48; 120; 53; 54; 68; 66; 32; 75; 65; 78; 74; 73; 78; 85; 77; 69; 82; 73; 67; 32; 75; 65; 78; 74; 73; 10;
  48; 120; 52; 69; 57; 52; 32; 75; 65; 78; 74; 73; 78; 85; 77; 69; 82; 73; 67; 32; 75; 65; 78; 74; 73; 10; 48; 120; 53; 49; 54; 68; 32; 75; 65; 78; 74; 73; 78; 85; 77; 69; 82; 73; 67; 32; 75; 65; 78; 74; 73; 10; 48; 120; 52; 69; 48; 51; 32; 75;
  65; 78; 74; 73; 78; 85; 77; 69; 82; 73; 67; 32; 75; 65; 78; 74; 73; 10; 48; 120; 53; 49; 54; 66; 32; 75; 65; 78; 74; 73; 78; 85; 77; 69; 82; 73; 67; 32; 75; 65; 78; 74; 73; 10; 48; 120; 52; 69; 53; 68; 32; 75; 65; 78; 74; 73; 78; 85; 77; 69;
  82; 73; 67; 32; 75; 65; 78; 74; 73; 10; 48; 120; 53; 51; 52; 49; 32; 75; 65; 78; 74; 73; 78; 85; 77; 69; 82; 73; 67; 32; 75; 65; 78; 74; 73; 10; 48; 120; 55; 54; 55; 69; 32; 75; 65; 78; 74; 73; 78; 85; 77; 69; 82; 73; 67; 32; 75; 65; 78; 74;
  73; 10; 48; 120; 53; 51; 52; 51; 32; 75; 65; 78; 74; 73; 78; 85; 77; 69; 82; 73; 67; 32; 75; 65; 78; 74; 73; 10; 48; 120; 52; 69; 48; 55; 32; 75; 65; 78; 74; 73; 78; 85; 77; 69; 82; 73; 67; 32; 75; 65; 78; 74; 73; 10; 48; 120; 53; 49; 48; 52;
  32; 75; 65; 78; 74; 73; 78; 85; 77; 69; 82; 73; 67; 32; 75; 65; 78; 74; 73; 10; 48; 120; 53; 49; 52; 54; 32; 75; 65; 78; 74; 73; 78; 85; 77; 69; 82; 73; 67; 32; 75; 65; 78; 74; 73; 10].
(** tests/resources/dict/lex.csv *)
Definition test_lex_csv : bytes :=
  [227; 129; 159; 44; 49; 44; 49; 44; 56; 55; 50; 57; 44; 227; 129; 159; 44; 229; 138; 169; 229; 139; 149; 232; 169; 158; 44; 42; 44; 42; 44; 42; 44; 229; 138; 169; 229; 139; 149; 232; 169; 158; 45; 227; 130; 191; 44; 231; 181; 130; 230; 173; 162; 229; 189; 162; 45; 228; 184; 128;
  232; 136; 172; 44; 227; 130; 191; 44; 227; 129; 159; 44; 42; 44; 65; 44; 42; 44; 42; 44; 42; 44; 42; 10; 227; 129; 171; 44; 50; 44; 50; 44; 49; 49; 52; 48; 54; 44; 227; 129; 171; 44; 229; 138; 169; 232; 169; 158; 44; 230; 142; 165; 231; 182; 154; 229; 138; 169; 232; 169;
  158; 44; 42; 44; 42; 44; 42; 44; 42; 44; 227; 131; 139; 44; 227; 129; 171; 44; 42; 44; 65; 44; 42; 44; 42; 44; 42; 44; 42; 10; 227; 129; 171; 44; 51; 44; 51; 44; 52; 52; 56; 49; 44; 227; 129; 171; 44; 229; 138; 169; 232; 169; 158; 44; 230; 160; 188; 229; 138; 169;
  232; 169; 158; 44; 42; 44; 42; 44; 42; 44; 42; 44; 227; 131; 139; 44; 227; 129; 171; 44; 42; 44; 65; 44; 42; 44; 42; 44; 42; 44; 42; 10; 228; 186; 172; 233; 131; 189; 44; 54; 44; 54; 44; 53; 50; 57; 51; 44; 228; 186; 172; 233; 131; 189; 44; 229; 144; 141; 232; 169;
  158; 44; 229; 155; 186; 230; 156; 137; 229; 144; 141; 232; 169; 158; 44; 229; 156; 176; 229; 144; 141; 44; 228; 184; 128; 232; 136; 172; 44; 42; 44; 42; 44; 227; 130; 173; 227; 131; 167; 227; 130; 166; 227; 131; 136; 44; 228; 186; 172; 233; 131; 189; 44; 42; 44; 65; 44; 42; 44; 42;
  44; 42; 44; 49; 47; 53; 10; 230; 157; 177; 44; 55; 44; 55; 44; 52; 54; 55; 53; 44; 230; 157; 177; 44; 229; 144; 141; 232; 169; 158; 44; 230; 153; 174; 233; 128; 154; 229; 144; 141; 232; 169; 158; 44; 228; 184; 128; 232; 136; 172; 44; 42; 44; 42; 44; 42; 44; 227; 131; 146;
  227; 130; 172; 227; 130; 183; 44; 230; 157; 177; 44; 42; 44; 65; 44; 42; 44; 42; 44; 42; 44; 42; 10; 230; 157; 177; 228; 186; 172; 44; 54; 44; 54; 44; 50; 56; 49; 54; 44; 230; 157; 177; 228; 186; 172; 44; 229; 144; 141; 232; 169; 158; 44; 229; 155; 186; 230; 156; 137; 229;
  144; 141; 232; 169; 158; 44; 229; 156; 176; 229; 144; 141; 44; 228; 184; 128; 232; 136; 172; 44; 42; 44; 42; 44; 227; 131; 136; 227; 130; 166; 227; 130; 173; 227; 131; 167; 227; 130; 166; 44; 230; 157; 177; 228; 186; 172; 44; 42; 44; 65; 44; 42; 44; 42; 44; 42; 44; 42; 10; 230;
  157; 177; 228; 186; 172; 233; 131; 189; 44; 54; 44; 56; 44; 53; 51; 50; 48; 44; 230; 157; 177; 228; 186; 172; 233; 131; 189; 44; 229; 144; 141; 232; 169; 158; 44; 229; 155; 186; 230; 156; 137; 229; 144; 141; 232; 169; 158; 44; 229; 156; 176; 229; 144; 141; 44; 228; 184; 128; 232; 136;
  172; 44; 42; 44; 42; 44; 227; 131; 136; 227; 130; 166; 227; 130; 173; 227; 131; 167; 227; 130; 166; 227; 131; 136; 44; 230; 157; 177; 228; 186; 172; 233; 131; 189; 44; 42; 44; 66; 44; 53; 47; 57; 44; 42; 44; 53; 47; 57; 44; 42; 10; 232; 161; 140; 227; 129; 143; 44; 52; 44;
  52; 44; 53; 49; 48; 53; 44; 232; 161; 140; 227; 129; 143; 44; 229; 139; 149; 232; 169; 158; 44; 233; 157; 158; 232; 135; 170; 231; 171; 139; 229; 143; 175; 232; 131; 189; 44; 42; 44; 42; 44; 228; 186; 148; 230; 174; 181; 45; 227; 130; 171; 232; 161; 140; 44; 231; 181; 130; 230; 173;
  162; 229; 189; 162; 45; 228; 184; 128; 232; 136; 172; 44; 227; 130; 164; 227; 130; 175; 44; 232; 161; 140; 227; 129; 143; 44; 42; 44; 65; 44; 42; 44; 42; 44; 42; 44; 42; 10; 232; 161; 140; 227; 129; 163; 44; 53; 44; 53; 44; 53; 49; 50; 50; 44; 232; 161; 140; 227; 129; 163;
  44; 229; 139; 149; 232; 169; 158; 44; 233; 157; 158; 232; 135; 170; 231; 171; 139; 229; 143; 175; 232; 131; 189; 44; 42; 44; 42; 44; 228; 186; 148; 230; 174; 181; 45; 227; 130; 171; 232; 161; 140; 44; 233; 128; 163; 231; 148; 168; 229; 189; 162; 45; 228; 191; 131; 233; 159; 179; 228; 190;
  191; 44; 227; 130; 164; 227; 131; 131; 44; 232; 161; 140; 227; 129; 143; 44; 55; 44; 65; 44; 42; 44; 42; 44; 42; 44; 42; 10; 233; 131; 189; 44; 56; 44; 56; 44; 50; 57; 49; 52; 44; 233; 131; 189; 44; 229; 144; 141; 232; 169; 158; 44; 230; 153; 174; 233; 128; 154; 229; 144;
  141; 232; 169; 158; 44; 228; 184; 128; 232; 136; 172; 44; 42; 44; 42; 44; 42; 44; 227; 131; 136; 44; 233; 131; 189; 44; 42; 44; 65; 44; 42; 44; 42; 44; 42; 44; 42; 10; 227; 130; 162; 227; 130; 164; 44; 55; 44; 55; 44; 52; 54; 55; 53; 44; 227; 130; 162; 227; 130; 164;
  44; 229; 144; 141; 232; 169; 158; 44; 230; 153; 174; 233; 128; 154; 229; 144; 141; 232; 169; 158; 44; 228; 184; 128; 232; 136; 172; 44; 42; 44; 42; 44; 42; 44; 227; 130; 162; 227; 130; 164; 44; 227; 130; 162; 227; 130; 164; 44; 42; 44; 65; 44; 42; 44; 42; 44; 42; 44; 42; 10;
  227; 130; 162; 227; 130; 164; 227; 130; 166; 44; 55; 44; 55; 44; 52; 54; 55; 53; 44; 227; 130; 162; 227; 130; 164; 227; 130; 166; 44; 229; 144; 141; 232; 169; 158; 44; 230; 153; 174; 233; 128; 154; 229; 144; 141; 232; 169; 158; 44; 228; 184; 128; 232; 136; 172; 44; 42; 44; 42; 44;
  42; 44; 227; 130; 162; 227; 130; 164; 227; 130; 166; 44; 227; 130; 162; 227; 130; 164; 227; 130; 166; 44; 42; 44; 65; 44; 42; 44; 42; 44; 42; 44; 42; 10; 227; 130; 162; 227; 130; 164; 227; 130; 162; 227; 130; 164; 227; 130; 166; 44; 54; 44; 54; 44; 51; 50; 55; 54; 54; 44;
  227; 130; 162; 227; 130; 164; 227; 130; 166; 44; 229; 144; 141; 232; 169; 158; 44; 229; 155; 186; 230; 156; 137; 229; 144; 141; 232; 169; 158; 44; 229; 156; 176; 229; 144; 141; 44; 228; 184; 128; 232; 136; 172; 44; 42; 44; 42; 44; 227; 130; 162; 227; 130; 164; 227; 130; 162; 227; 130; 164;
  227; 130; 166; 44; 227; 130; 162; 227; 130; 164; 227; 130; 162; 227; 130; 164; 227; 130; 166; 44; 42; 44; 65; 44; 42; 44; 42; 44; 42; 44; 42; 10; 48; 44; 57; 44; 57; 44; 50; 52; 55; 56; 44; 48; 44; 229; 144; 141; 232; 169; 158; 44; 230; 149; 176; 232; 169; 158; 44; 42;
  44; 42; 44; 42; 44; 42; 44; 227; 130; 188; 227; 131; 173; 44; 48; 44; 42; 44; 65; 44; 42; 44; 42; 44; 42; 44; 42; 10; 49; 44; 57; 44; 57; 44; 50; 52; 55; 56; 44; 49; 44; 229; 144; 141; 232; 169; 158; 44; 230; 149; 176; 232; 169; 158; 44; 42; 44; 42; 44; 42;
  44; 42; 44; 227; 130; 164; 227; 131; 129; 44; 49; 44; 42; 44; 65; 44; 42; 44; 42; 44; 42; 44; 42; 10; 50; 44; 57; 44; 57; 44; 50; 52; 55; 56; 44; 50; 44; 229; 144; 141; 232; 169; 158; 44; 230; 149; 176; 232; 169; 158; 44; 42; 44; 42; 44; 42; 44; 42; 44; 227;
  131; 139; 44; 50; 44; 42; 44; 65; 44; 42; 44; 42; 44; 42; 44; 42; 10; 51; 44; 57; 44; 57; 44; 50; 52; 55; 56; 44; 51; 44; 229; 144; 141; 232; 169; 158; 44; 230; 149; 176; 232; 169; 158; 44; 42; 44; 42; 44; 42; 44; 42; 44; 227; 130; 181; 227; 131; 179; 44; 51;
  44; 42; 44; 65; 44; 42; 44; 42; 44; 42; 44; 42; 10; 52; 44; 57; 44; 57; 44; 50; 52; 55; 56; 44; 52; 44; 229; 144; 141; 232; 169; 158; 44; 230; 149; 176; 232; 169; 158; 44; 42; 44; 42; 44; 42; 44; 42; 44; 227; 131; 168; 227; 131; 179; 44; 52; 44; 42; 44; 65;
  44; 42; 44; 42; 44; 42; 44; 42; 10; 53; 44; 57; 44; 57; 44; 50; 52; 55; 56; 44; 53; 44; 229; 144; 141; 232; 169; 158; 44; 230; 149; 176; 232; 169; 158; 44; 42; 44; 42; 44; 42; 44; 42; 44; 227; 130; 180; 44; 53; 44; 42; 44; 65; 44; 42; 44; 42; 44; 42; 44;
  42; 10; 54; 44; 57; 44; 57; 44; 50; 52; 55; 56; 44; 54; 44; 229; 144; 141; 232; 169; 158; 44; 230; 149; 176; 232; 169; 158; 44; 42; 44; 42; 44; 42; 44; 42; 44; 227; 131; 173; 227; 130; 175; 44; 54; 44; 42; 44; 65; 44; 42; 44; 42; 44; 42; 44; 42; 10; 55; 44;
  57; 44; 57; 44; 50; 52; 55; 56; 44; 55; 44; 229; 144; 141; 232; 169; 158; 44; 230; 149; 176; 232; 169; 158; 44; 42; 44; 42; 44; 42; 44; 42; 44; 227; 131; 138; 227; 131; 138; 44; 55; 44; 42; 44; 65; 44; 42; 44; 42; 44; 42; 44; 42; 10; 56; 44; 57; 44; 57; 44;
  50; 52; 55; 56; 44; 56; 44; 229; 144; 141; 232; 169; 158; 44; 230; 149; 176; 232; 169; 158; 44; 42; 44; 42; 44; 42; 44; 42; 44; 227; 131; 143; 227; 131; 129; 44; 56; 44; 42; 44; 65; 44; 42; 44; 42; 44; 42; 44; 42; 10; 57; 44; 57; 44; 57; 44; 50; 52; 55; 56;
  44; 57; 44; 229; 144; 141; 232; 169; 158; 44; 230; 149; 176; 232; 169; 158; 44; 42; 44; 42; 44; 42; 44; 42; 44; 227; 130; 173; 227; 131; 165; 227; 130; 166; 44; 57; 44; 42; 44; 65; 44; 42; 44; 42; 44; 42; 44; 42; 10; 227; 128; 135; 44; 57; 44; 57; 44; 50; 52; 55;
  56; 44; 227; 128; 135; 44; 229; 144; 141; 232; 169; 158; 44; 230; 149; 176; 232; 169; 158; 44; 42; 44; 42; 44; 42; 44; 42; 44; 227; 130; 188; 227; 131; 173; 44; 227; 128; 135; 44; 42; 44; 65; 44; 42; 44; 42; 44; 42; 44; 42; 10; 228; 184; 128; 44; 57; 44; 57; 44; 50;
  52; 55; 56; 44; 228; 184; 128; 44; 229; 144; 141; 232; 169; 158; 44; 230; 149; 176; 232; 169; 158; 44; 42; 44; 42; 44; 42; 44; 42; 44; 227; 130; 164; 227; 131; 129; 44; 228; 184; 128; 44; 42; 44; 65; 44; 42; 44; 42; 44; 42; 44; 42; 10; 228; 186; 140; 44; 57; 44; 57;
  44; 50; 52; 55; 56; 44; 228; 186; 140; 44; 229; 144; 141; 232; 169; 158; 44; 230; 149; 176; 232; 169; 158; 44; 42; 44; 42; 44; 42; 44; 42; 44; 227; 131; 139; 44; 228; 186; 140; 44; 42; 44; 65; 44; 42; 44; 42; 44; 42; 44; 42; 10; 228; 184; 137; 44; 57; 44; 57; 44;
  50; 52; 55; 56; 44; 228; 184; 137; 44; 229; 144; 141; 232; 169; 158; 44; 230; 149; 176; 232; 169; 158; 44; 42; 44; 42; 44; 42; 44; 42; 44; 227; 130; 181; 227; 131; 179; 44; 228; 184; 137; 44; 42; 44; 65; 44; 42; 44; 42; 44; 42; 44; 42; 10; 229; 155; 155; 44; 57; 44;
  57; 44; 50; 52; 55; 56; 44; 229; 155; 155; 44; 229; 144; 141; 232; 169; 158; 44; 230; 149; 176; 232; 169; 158; 44; 42; 44; 42; 44; 42; 44; 42; 44; 227; 131; 168; 227; 131; 179; 44; 229; 155; 155; 44; 42; 44; 65; 44; 42; 44; 42; 44; 42; 44; 42; 10; 228; 186; 148; 44;
  57; 44; 57; 44; 50; 52; 55; 56; 44; 228; 186; 148; 44; 229; 144; 141; 232; 169; 158; 44; 230; 149; 176; 232; 169; 158; 44; 42; 44; 42; 44; 42; 44; 42; 44; 227; 130; 180; 44; 228; 186; 148; 44; 42; 44; 65; 44; 42; 44; 42; 44; 42; 44; 42; 10; 229; 133; 173; 44; 57;
  44; 57; 44; 50; 52; 55; 56; 44; 229; 133; 173; 44; 229; 144; 141; 232; 169; 158; 44; 230; 149; 176; 232; 169; 158; 44; 42; 44; 42; 44; 42; 44; 42; 44; 227; 131; 173; 227; 130; 175; 44; 229; 133; 173; 44; 42; 44; 65; 44; 42; 44; 42; 44; 42; 44; 42; 10; 228; 184; 131;
  44; 57; 44; 57; 44; 50; 52; 55; 56; 44; 228; 184; 131; 44; 229; 144; 141; 232; 169; 158; 44; 230; 149; 176; 232; 169; 158; 44; 42; 44; 42; 44; 42; 44; 42; 44; 227; 131; 138; 227; 131; 138; 44; 228; 184; 131; 44; 42; 44; 65; 44; 42; 44; 42; 44; 42; 44; 42; 10; 229;
  133; 171; 44; 57; 44; 57; 44; 50; 52; 55; 56; 44; 229; 133; 171; 44; 229; 144; 141; 232; 169; 158; 44; 230; 149; 176; 232; 169; 158; 44; 42; 44; 42; 44; 42; 44; 42; 44; 227; 131; 143; 227; 131; 129; 44; 229; 133; 171; 44; 42; 44; 65; 44; 42; 44; 42; 44; 42; 44; 42;
  10; 228; 185; 157; 44; 57; 44; 57; 44; 50; 52; 55; 56; 44; 228; 185; 157; 44; 229; 144; 141; 232; 169; 158; 44; 230; 149; 176; 232; 169; 158; 44; 42; 44; 42; 44; 42; 44; 42; 44; 227; 130; 173; 227; 131; 165; 227; 130; 166; 44; 228; 185; 157; 44; 42; 44; 65; 44; 42; 44;
  42; 44; 42; 44; 42; 10; 229; 133; 173; 228; 184; 137; 229; 155; 155; 44; 54; 44; 54; 44; 48; 44; 229; 133; 173; 228; 184; 137; 229; 155; 155; 44; 229; 144; 141; 232; 169; 158; 44; 229; 155; 186; 230; 156; 137; 229; 144; 141; 232; 169; 158; 44; 229; 156; 176; 229; 144; 141; 44; 228;
  184; 128; 232; 136; 172; 44; 42; 44; 42; 44; 227; 131; 160; 227; 130; 181; 227; 130; 183; 44; 229; 133; 173; 228; 184; 137; 229; 155; 155; 44; 42; 44; 65; 44; 42; 44; 42; 44; 42; 44; 42; 10; 227; 129; 132; 227; 129; 143; 44; 52; 44; 52; 44; 53; 49; 48; 53; 44; 227; 129;
  132; 227; 129; 143; 44; 229; 139; 149; 232; 169; 158; 44; 233; 157; 158; 232; 135; 170; 231; 171; 139; 229; 143; 175; 232; 131; 189; 44; 42; 44; 42; 44; 228; 186; 148; 230; 174; 181; 45; 227; 130; 171; 232; 161; 140; 44; 231; 181; 130; 230; 173; 162; 229; 189; 162; 45; 228; 184; 128; 232;
  136; 172; 44; 227; 130; 164; 227; 130; 175; 44; 232; 161; 140; 227; 129; 143; 44; 42; 44; 65; 44; 42; 44; 42; 44; 42; 44; 42; 10; 227; 129; 132; 227; 129; 163; 44; 53; 44; 53; 44; 53; 49; 50; 50; 44; 227; 129; 132; 227; 129; 163; 44; 229; 139; 149; 232; 169; 158; 44; 233;
  157; 158; 232; 135; 170; 231; 171; 139; 229; 143; 175; 232; 131; 189; 44; 42; 44; 42; 44; 228; 186; 148; 230; 174; 181; 45; 227; 130; 171; 232; 161; 140; 44; 233; 128; 163; 231; 148; 168; 229; 189; 162; 45; 228; 191; 131; 233; 159; 179; 228; 190; 191; 44; 227; 130; 164; 227; 131; 131; 44;
  232; 161; 140; 227; 129; 143; 44; 51; 52; 44; 65; 44; 42; 44; 42; 44; 42; 44; 42; 10; 48; 49; 50; 51; 52; 53; 54; 55; 56; 57; 48; 49; 50; 51; 52; 53; 54; 55; 56; 57; 48; 49; 50; 51; 52; 53; 54; 55; 56; 57; 48; 49; 50; 51; 52; 53; 54; 55; 56; 57;
  48; 49; 50; 51; 52; 53; 54; 55; 56; 57; 48; 49; 50; 51; 52; 53; 54; 55; 56; 57; 48; 49; 50; 51; 52; 53; 54; 55; 56; 57; 48; 49; 50; 51; 52; 53; 54; 55; 56; 57; 48; 49; 50; 51; 52; 53; 54; 55; 56; 57; 48; 49; 50; 51; 52; 53; 54; 55; 56; 57;
  48; 49; 50; 51; 52; 53; 54; 55; 56; 57; 48; 49; 50; 51; 52; 53; 54; 55; 56; 57; 48; 49; 50; 51; 52; 53; 54; 55; 56; 57; 48; 49; 50; 51; 52; 53; 54; 55; 56; 57; 48; 49; 50; 51; 52; 53; 54; 55; 56; 57; 48; 49; 50; 51; 52; 53; 54; 55; 56; 57;
  48; 49; 50; 51; 52; 53; 54; 55; 56; 57; 48; 49; 50; 51; 52; 53; 54; 55; 56; 57; 48; 49; 50; 51; 52; 53; 54; 55; 56; 57; 48; 49; 50; 51; 52; 53; 54; 55; 56; 57; 48; 49; 50; 51; 52; 53; 54; 55; 56; 57; 48; 49; 50; 51; 52; 53; 54; 55; 56; 57;
  48; 49; 50; 51; 52; 53; 54; 55; 56; 57; 48; 49; 50; 51; 52; 53; 54; 55; 56; 57; 48; 49; 50; 51; 52; 53; 54; 55; 56; 57; 48; 49; 50; 51; 52; 53; 54; 55; 56; 57; 48; 49; 50; 51; 52; 53; 54; 55; 56; 57; 48; 49; 50; 51; 52; 53; 54; 55; 56; 57;
  48; 49; 50; 51; 52; 53; 54; 55; 56; 57; 48; 49; 50; 51; 52; 53; 54; 55; 56; 57; 44; 57; 44; 57; 44; 50; 52; 55; 56; 44; 48; 49; 50; 51; 52; 53; 54; 55; 56; 57; 48; 49; 50; 51; 52; 53; 54; 55; 56; 57; 48; 49; 50; 51; 52; 53; 54; 55; 56; 57;
  48; 49; 50; 51; 52; 53; 54; 55; 56; 57; 48; 49; 50; 51; 52; 53; 54; 55; 56; 57; 48; 49; 50; 51; 52; 53; 54; 55; 56; 57; 48; 49; 50; 51; 52; 53; 54; 55; 56; 57; 48; 49; 50; 51; 52; 53; 54; 55; 56; 57; 48; 49; 50; 51; 52; 53; 54; 55; 56; 57;
  48; 49; 50; 51; 52; 53; 54; 55; 56; 57; 48; 49; 50; 51; 52; 53; 54; 55; 56; 57; 48; 49; 50; 51; 52; 53; 54; 55; 56; 57; 48; 49; 50; 51; 52; 53; 54; 55; 56; 57; 48; 49; 50; 51; 52; 53; 54; 55; 56; 57; 48; 49; 50; 51; 52; 53; 54; 55; 56; 57;
  48; 49; 50; 51; 52; 53; 54; 55; 56; 57; 48; 49; 50; 51; 52; 53; 54; 55; 56; 57; 48; 49; 50; 51; 52; 53; 54; 55; 56; 57; 48; 49; 50; 51; 52; 53; 54; 55; 56; 57; 48; 49; 50; 51; 52; 53; 54; 55; 56; 57; 48; 49; 50; 51; 52; 53; 54; 55; 56; 57;
  48; 49; 50; 51; 52; 53; 54; 55; 56; 57; 48; 49; 50; 51; 52; 53; 54; 55; 56; 57; 48; 49; 50; 51; 52; 53; 54; 55; 56; 57; 48; 49; 50; 51; 52; 53; 54; 55; 56; 57; 48; 49; 50; 51; 52; 53; 54; 55; 56; 57; 48; 49; 50; 51; 52; 53; 54; 55; 56; 57;
  48; 49; 50; 51; 52; 53; 54; 55; 56; 57; 48; 49; 50; 51; 52; 53; 54; 55; 56; 57; 48; 49; 50; 51; 52; 53; 54; 55; 56; 57; 44; 229; 144; 141; 232; 169; 158; 44; 230; 149; 176; 232; 169; 158; 44; 42; 44; 42; 44; 42; 44; 42; 44; 227; 130; 188; 227; 131; 173; 227;
  130; 164; 227; 131; 129; 227; 131; 139; 227; 130; 181; 227; 131; 179; 227; 131; 168; 227; 131; 179; 227; 130; 180; 227; 131; 173; 227; 130; 175; 227; 131; 138; 227; 131; 138; 227; 131; 143; 227; 131; 129; 227; 130; 173; 227; 131; 165; 227; 130; 166; 227; 130; 188; 227; 131; 173; 227; 130; 164; 227;
  131; 129; 227; 131; 139; 227; 130; 181; 227; 131; 179; 227; 131; 168; 227; 131; 179; 227; 130; 180; 227; 131; 173; 227; 130; 175; 227; 131; 138; 227; 131; 138; 227; 131; 143; 227; 131; 129; 227; 130; 173; 227; 131; 165; 227; 130; 166; 227; 130; 188; 227; 131; 173; 227; 130; 164; 227; 131; 129; 227;
  131; 139; 227; 130; 181; 227; 131; 179; 227; 131; 168; 227; 131; 179; 227; 130; 180; 227; 131; 173; 227; 130; 175; 227; 131; 138; 227; 131; 138; 227; 131; 143; 227; 131; 129; 227; 130; 173; 227; 131; 165; 227; 130; 166; 227; 130; 188; 227; 131; 173; 227; 130; 164; 227; 131; 129; 227; 131; 139; 227;
  130; 181; 227; 131; 179; 227; 131; 168; 227; 131; 179; 227; 130; 180; 227; 131; 173; 227; 130; 175; 227; 131; 138; 227; 131; 138; 227; 131; 143; 227; 131; 129; 227; 130; 173; 227; 131; 165; 227; 130; 166; 227; 130; 188; 227; 131; 173; 227; 130; 164; 227; 131; 129; 227; 131; 139; 227; 130; 181; 227;
  131; 179; 227; 131; 168; 227; 131; 179; 227; 130; 180; 227; 131; 173; 227; 130; 175; 227; 131; 138; 227; 131; 138; 227; 131; 143; 227; 131; 129; 227; 130; 173; 227; 131; 165; 227; 130; 166; 227; 130; 188; 227; 131; 173; 227; 130; 164; 227; 131; 129; 227; 131; 139; 227; 130; 181; 227; 131; 179; 227;
  131; 168; 227; 131; 179; 227; 130; 180; 227; 131; 173; 227; 130; 175; 227; 131; 138; 227; 131; 138; 227; 131; 143; 227; 131; 129; 227; 130; 173; 227; 131; 165; 227; 130; 166; 227; 130; 188; 227; 131; 173; 227; 130; 164; 227; 131; 129; 227; 131; 139; 227; 130; 181; 227; 131; 179; 227; 131; 168; 227;
  131; 179; 227; 130; 180; 227; 131; 173; 227; 130; 175; 227; 131; 138; 227; 131; 138; 227; 131; 143; 227; 131; 129; 227; 130; 173; 227; 131; 165; 227; 130; 166; 227; 130; 188; 227; 131; 173; 227; 130; 164; 227; 131; 129; 227; 131; 139; 227; 130; 181; 227; 131; 179; 227; 131; 168; 227; 131; 179; 227;
  130; 180; 227; 131; 173; 227; 130; 175; 227; 131; 138; 227; 131; 138; 227; 131; 143; 227; 131; 129; 227; 130; 173; 227; 131; 165; 227; 130; 166; 227; 130; 188; 227; 131; 173; 227; 130; 164; 227; 131; 129; 227; 131; 139; 227; 130; 181; 227; 131; 179; 227; 131; 168; 227; 131; 179; 227; 130; 180; 227;
  131; 173; 227; 130; 175; 227; 131; 138; 227; 131; 138; 227; 131; 143; 227; 131; 129; 227; 130; 173; 227; 131; 165; 227; 130; 166; 227; 130; 188; 227; 131; 173; 227; 130; 164; 227; 131; 129; 227; 131; 139; 227; 130; 181; 227; 131; 179; 227; 131; 168; 227; 131; 179; 227; 130; 180; 227; 131; 173; 227;
  130; 175; 227; 131; 138; 227; 131; 138; 227; 131; 143; 227; 131; 129; 227; 130; 173; 227; 131; 165; 227; 130; 166; 227; 130; 188; 227; 131; 173; 227; 130; 164; 227; 131; 129; 227; 131; 139; 227; 130; 181; 227; 131; 179; 227; 131; 168; 227; 131; 179; 227; 130; 180; 227; 131; 173; 227; 130; 175; 227;
  131; 138; 227; 131; 138; 227; 131; 143; 227; 131; 129; 227; 130; 173; 227; 131; 165; 227; 130; 166; 227; 130; 188; 227; 131; 173; 227; 130; 164; 227; 131; 129; 227; 131; 139; 227; 130; 181; 227; 131; 179; 227; 131; 168; 227; 131; 179; 227; 130; 180; 227; 131; 173; 227; 130; 175; 227; 131; 138; 227;
  131; 138; 227; 131; 143; 227; 131; 129; 227; 130; 173; 227; 131; 165; 227; 130; 166; 227; 130; 188; 227; 131; 173; 227; 130; 164; 227; 131; 129; 227; 131; 139; 227; 130; 181; 227; 131; 179; 227; 131; 168; 227; 131; 179; 227; 130; 180; 227; 131; 173; 227; 130; 175; 227; 131; 138; 227; 131; 138; 227;
  131; 143; 227; 131; 129; 227; 130; 173; 227; 131; 165; 227; 130; 166; 227; 130; 188; 227; 131; 173; 227; 130; 164; 227; 131; 129; 227; 131; 139; 227; 130; 181; 227; 131; 179; 227; 131; 168; 227; 131; 179; 227; 130; 180; 227; 131; 173; 227; 130; 175; 227; 131; 138; 227; 131; 138; 227; 131; 143; 227;
  131; 129; 227; 130; 173; 227; 131; 165; 227; 130; 166; 227; 130; 188; 227; 131; 173; 227; 130; 164; 227; 131; 129; 227; 131; 139; 227; 130; 181; 227; 131; 179; 227; 131; 168; 227; 131; 179; 227; 130; 180; 227; 131; 173; 227; 130; 175; 227; 131; 138; 227; 131; 138; 227; 131; 143; 227; 131; 129; 227;
  130; 173; 227; 131; 165; 227; 130; 166; 227; 130; 188; 227; 131; 173; 227; 130; 164; 227; 131; 129; 227; 131; 139; 227; 130; 181; 227; 131; 179; 227; 131; 168; 227; 131; 179; 227; 130; 180; 227; 131; 173; 227; 130; 175; 227; 131; 138; 227; 131; 138; 227; 131; 143; 227; 131; 129; 227; 130; 173; 227;
  131; 165; 227; 130; 166; 227; 130; 188; 227; 131; 173; 227; 130; 164; 227; 131; 129; 227; 131; 139; 227; 130; 181; 227; 131; 179; 227; 131; 168; 227; 131; 179; 227; 130; 180; 227; 131; 173; 227; 130; 175; 227; 131; 138; 227; 131; 138; 227; 131; 143; 227; 131; 129; 227; 130; 173; 227; 131; 165; 227;
  130; 166; 227; 130; 188; 227; 131; 173; 227; 130; 164; 227; 131; 129; 227; 131; 139; 227; 130; 181; 227; 131; 179; 227; 131; 168; 227; 131; 179; 227; 130; 180; 227; 131; 173; 227; 130; 175; 227; 131; 138; 227; 131; 138; 227; 131; 143; 227; 131; 129; 227; 130; 173; 227; 131; 165; 227; 130; 166; 227;
  130; 188; 227; 131; 173; 227; 130; 164; 227; 131; 129; 227; 131; 139; 227; 130; 181; 227; 131; 179; 227; 131; 168; 227; 131; 179; 227; 130; 180; 227; 131; 173; 227; 130; 175; 227; 131; 138; 227; 131; 138; 227; 131; 143; 227; 131; 129; 227; 130; 173; 227; 131; 165; 227; 130; 166; 227; 130; 188; 227;
  131; 173; 227; 130; 164; 227; 131; 129; 227; 131; 139; 227; 130; 181; 227; 131; 179; 227; 131; 168; 227; 131; 179; 227; 130; 180; 227; 131; 173; 227; 130; 175; 227; 131; 138; 227; 131; 138; 227; 131; 143; 227; 131; 129; 227; 130; 173; 227; 131; 165; 227; 130; 166; 227; 130; 188; 227; 131; 173; 227;
  130; 164; 227; 131; 129; 227; 131; 139; 227; 130; 181; 227; 131; 179; 227; 131; 168; 227; 131; 179; 227; 130; 180; 227; 131; 173; 227; 130; 175; 227; 131; 138; 227; 131; 138; 227; 131; 143; 227; 131; 129; 227; 130; 173; 227; 131; 165; 227; 130; 166; 227; 130; 188; 227; 131; 173; 227; 130; 164; 227;
  131; 129; 227; 131; 139; 227; 130; 181; 227; 131; 179; 227; 131; 168; 227; 131; 179; 227; 130; 180; 227; 131; 173; 227; 130; 175; 227; 131; 138; 227; 131; 138; 227; 131; 143; 227; 131; 129; 227; 130; 173; 227; 131; 165; 227; 130; 166; 227; 130; 188; 227; 131; 173; 227; 130; 164; 227; 131; 129; 227;
  131; 139; 227; 130; 181; 227; 131; 179; 227; 131; 168; 227; 131; 179; 227; 130; 180; 227; 131; 173; 227; 130; 175; 227; 131; 138; 227; 131; 138; 227; 131; 143; 227; 131; 129; 227; 130; 173; 227; 131; 165; 227; 130; 166; 227; 130; 188; 227; 131; 173; 227; 130; 164; 227; 131; 129; 227; 131; 139; 227;
  130; 181; 227; 131; 179; 227; 131; 168; 227; 131; 179; 227; 130; 180; 227; 131; 173; 227; 130; 175; 227; 131; 138; 227; 131; 138; 227; 131; 143; 227; 131; 129; 227; 130; 173; 227; 131; 165; 227; 130; 166; 227; 130; 188; 227; 131; 173; 227; 130; 164; 227; 131; 129; 227; 131; 139; 227; 130; 181; 227;
  131; 179; 227; 131; 168; 227; 131; 179; 227; 130; 180; 227; 131; 173; 227; 130; 175; 227; 131; 138; 227; 131; 138; 227; 131; 143; 227; 131; 129; 227; 130; 173; 227; 131; 165; 227; 130; 166; 227; 130; 188; 227; 131; 173; 227; 130; 164; 227; 131; 129; 227; 131; 139; 227; 130; 181; 227; 131; 179; 227;
  131; 168; 227; 131; 179; 227; 130; 180; 227; 131; 173; 227; 130; 175; 227; 131; 138; 227; 131; 138; 227; 131; 143; 227; 131; 129; 227; 130; 173; 227; 131; 165; 227; 130; 166; 227; 130; 188; 227; 131; 173; 227; 130; 164; 227; 131; 129; 227; 131; 139; 227; 130; 181; 227; 131; 179; 227; 131; 168; 227;
  131; 179; 227; 130; 180; 227; 131; 173; 227; 130; 175; 227; 131; 138; 227; 131; 138; 227; 131; 143; 227; 131; 129; 227; 130; 173; 227; 131; 165; 227; 130; 166; 227; 130; 188; 227; 131; 173; 227; 130; 164; 227; 131; 129; 227; 131; 139; 227; 130; 181; 227; 131; 179; 227; 131; 168; 227; 131; 179; 227;
  130; 180; 227; 131; 173; 227; 130; 175; 227; 131; 138; 227; 131; 138; 227; 131; 143; 227; 131; 129; 227; 130; 173; 227; 131; 165; 227; 130; 166; 227; 130; 188; 227; 131; 173; 227; 130; 164; 227; 131; 129; 227; 131; 139; 227; 130; 181; 227; 131; 179; 227; 131; 168; 227; 131; 179; 227; 130; 180; 227;
  131; 173; 227; 130; 175; 227; 131; 138; 227; 131; 138; 227; 131; 143; 227; 131; 129; 227; 130; 173; 227; 131; 165; 227; 130; 166; 227; 130; 188; 227; 131; 173; 227; 130; 164; 227; 131; 129; 227; 131; 139; 227; 130; 181; 227; 131; 179; 227; 131; 168; 227; 131; 179; 227; 130; 180; 227; 131; 173; 227;
  130; 175; 227; 131; 138; 227; 131; 138; 227; 131; 143; 227; 131; 129; 227; 130; 173; 227; 131; 165; 227; 130; 166; 44; 48; 49; 50; 51; 52; 53; 54; 55; 56; 57; 48; 49; 50; 51; 52; 53; 54; 55; 56; 57; 48; 49; 50; 51; 52; 53; 54; 55; 56; 57; 48; 49; 50; 51; 52; 53;
  54; 55; 56; 57; 48; 49; 50; 51; 52; 53; 54; 55; 56; 57; 48; 49; 50; 51; 52; 53; 54; 55; 56; 57; 48; 49; 50; 51; 52; 53; 54; 55; 56; 57; 48; 49; 50; 51; 52; 53; 54; 55; 56; 57; 48; 49; 50; 51; 52; 53; 54; 55; 56; 57; 48; 49; 50; 51; 52; 53;
  54; 55; 56; 57; 48; 49; 50; 51; 52; 53; 54; 55; 56; 57; 48; 49; 50; 51; 52; 53; 54; 55; 56; 57; 48; 49; 50; 51; 52; 53; 54; 55; 56; 57; 48; 49; 50; 51; 52; 53; 54; 55; 56; 57; 48; 49; 50; 51; 52; 53; 54; 55; 56; 57; 48; 49; 50; 51; 52; 53;
  54; 55; 56; 57; 48; 49; 50; 51; 52; 53; 54; 55; 56; 57; 48; 49; 50; 51; 52; 53; 54; 55; 56; 57; 48; 49; 50; 51; 52; 53; 54; 55; 56; 57; 48; 49; 50; 51; 52; 53; 54; 55; 56; 57; 48; 49; 50; 51; 52; 53; 54; 55; 56; 57; 48; 49; 50; 51; 52; 53;
  54; 55; 56; 57; 48; 49; 50; 51; 52; 53; 54; 55; 56; 57; 48; 49; 50; 51; 52; 53; 54; 55; 56; 57; 48; 49; 50; 51; 52; 53; 54; 55; 56; 57; 48; 49; 50; 51; 52; 53; 54; 55; 56; 57; 48; 49; 50; 51; 52; 53; 54; 55; 56; 57; 48; 49; 50; 51; 52; 53;
  54; 55; 56; 57; 48; 49; 50; 51; 52; 53; 54; 55; 56; 57; 48; 49; 50; 51; 52; 53; 54; 55; 56; 57; 44; 42; 44; 65; 44; 42; 44; 42; 44; 42; 44; 42; 10; 231; 137; 185; 97; 44; 56; 44; 56; 44; 50; 57; 49; 52; 44; 231; 137; 185; 97; 44; 229; 144; 141; 232;
  169; 158; 44; 230; 153; 174; 233; 128; 154; 229; 144; 141; 232; 169; 158; 44; 228; 184; 128; 232; 136; 172; 44; 42; 44; 42; 44; 42; 44; 227; 131; 136; 227; 130; 175; 227; 130; 168; 227; 131; 188; 44; 231; 137; 185; 97; 44; 42; 44; 65; 44; 42; 44; 42; 44; 42; 44; 42; 10; 227;
  129; 170; 227; 128; 130; 227; 129; 170; 44; 56; 44; 56; 44; 50; 57; 49; 52; 44; 227; 129; 170; 227; 128; 130; 227; 129; 170; 44; 229; 144; 141; 232; 169; 158; 44; 230; 153; 174; 233; 128; 154; 229; 144; 141; 232; 169; 158; 44; 228; 184; 128; 232; 136; 172; 44; 42; 44; 42; 44; 42;
  44; 227; 131; 138; 227; 131; 138; 44; 227; 129; 170; 227; 128; 130; 227; 129; 170; 44; 42; 44; 65; 44; 42; 44; 42; 44; 42; 44; 42].
(** tests/resources/dict/matrix.def *)
Definition test_matrix_def : bytes :=
  [49; 48; 32; 49; 48; 10; 48; 32; 48; 32; 48; 10; 48; 32; 49; 32; 56; 54; 51; 10; 48; 32; 50; 32; 50; 49; 50; 52; 10; 48; 32; 51; 32; 49; 48; 51; 50; 10; 48; 32; 52; 32; 53; 57; 49; 10; 48; 32; 53; 32; 45; 49; 54; 50; 10; 48; 32; 54; 32; 45;
  55; 57; 10; 48; 32; 55; 32; 56; 56; 55; 10; 48; 32; 56; 32; 52; 52; 55; 10; 48; 32; 57; 32; 45; 53; 51; 53; 10; 49; 32; 48; 32; 45; 51; 54; 56; 57; 10; 49; 32; 49; 32; 45; 51; 51; 54; 49; 10; 49; 32; 50; 32; 45; 55; 54; 52; 51; 10; 49; 32;
  51; 32; 45; 51; 50; 54; 55; 10; 49; 32; 52; 32; 56; 48; 57; 10; 49; 32; 53; 32; 45; 49; 48; 57; 56; 10; 49; 32; 54; 32; 52; 54; 48; 54; 10; 49; 32; 55; 32; 52; 50; 54; 57; 10; 49; 32; 56; 32; 52; 53; 54; 55; 10; 49; 32; 57; 32; 49; 54; 51;
  53; 10; 50; 32; 48; 32; 45; 49; 57; 53; 57; 10; 50; 32; 49; 32; 50; 52; 53; 55; 10; 50; 32; 50; 32; 56; 49; 49; 10; 50; 32; 51; 32; 56; 52; 48; 10; 50; 32; 52; 32; 57; 48; 51; 10; 50; 32; 53; 32; 45; 57; 53; 56; 10; 50; 32; 54; 32; 53; 49;
  55; 10; 50; 32; 55; 32; 50; 48; 51; 55; 10; 50; 32; 56; 32; 49; 51; 57; 50; 10; 50; 32; 57; 32; 45; 49; 57; 51; 10; 51; 32; 48; 32; 45; 50; 50; 56; 56; 10; 51; 32; 49; 32; 49; 55; 52; 49; 10; 51; 32; 50; 32; 52; 56; 55; 10; 51; 32; 51; 32;
  55; 57; 50; 10; 51; 32; 52; 32; 45; 49; 52; 55; 52; 10; 51; 32; 53; 32; 45; 51; 52; 50; 57; 10; 51; 32; 54; 32; 49; 50; 54; 10; 51; 32; 55; 32; 52; 51; 55; 10; 51; 32; 56; 32; 54; 48; 53; 10; 51; 32; 57; 32; 45; 53; 52; 55; 10; 52; 32; 48;
  32; 45; 50; 56; 48; 57; 10; 52; 32; 49; 32; 45; 51; 53; 56; 52; 10; 52; 32; 50; 32; 45; 54; 55; 52; 51; 10; 52; 32; 51; 32; 45; 50; 56; 54; 57; 10; 52; 32; 52; 32; 45; 50; 56; 48; 53; 10; 52; 32; 53; 32; 45; 52; 48; 55; 10; 52; 32; 54; 32;
  51; 52; 50; 50; 10; 52; 32; 55; 32; 53; 54; 52; 50; 10; 52; 32; 56; 32; 54; 51; 56; 50; 10; 52; 32; 57; 32; 50; 49; 54; 53; 10; 53; 32; 48; 32; 45; 53; 48; 57; 10; 53; 32; 49; 32; 45; 51; 54; 54; 53; 10; 53; 32; 50; 32; 45; 51; 56; 56; 50;
  10; 53; 32; 51; 32; 45; 53; 55; 50; 10; 53; 32; 52; 32; 45; 49; 48; 51; 54; 10; 53; 32; 53; 32; 45; 53; 52; 10; 53; 32; 54; 32; 50; 53; 55; 48; 10; 53; 32; 55; 32; 51; 51; 49; 57; 10; 53; 32; 56; 32; 52; 48; 53; 57; 10; 53; 32; 57; 32; 56;
  56; 50; 10; 54; 32; 48; 32; 49; 48; 49; 10; 54; 32; 49; 32; 50; 57; 51; 51; 10; 54; 32; 50; 32; 50; 49; 57; 56; 10; 54; 32; 51; 32; 45; 50; 48; 48; 52; 10; 54; 32; 52; 32; 52; 51; 57; 50; 10; 54; 32; 53; 32; 52; 48; 49; 55; 10; 54; 32; 54;
  32; 53; 54; 57; 10; 54; 32; 55; 32; 52; 55; 53; 10; 54; 32; 56; 32; 45; 51; 57; 48; 10; 54; 32; 57; 32; 56; 53; 50; 10; 55; 32; 48; 32; 45; 56; 53; 50; 10; 55; 32; 49; 32; 50; 48; 55; 57; 10; 55; 32; 50; 32; 49; 49; 56; 48; 10; 55; 32; 51;
  32; 45; 51; 48; 56; 52; 10; 55; 32; 52; 32; 50; 48; 49; 48; 10; 55; 32; 53; 32; 49; 53; 55; 48; 10; 55; 32; 54; 32; 55; 52; 54; 10; 55; 32; 55; 32; 50; 51; 52; 49; 10; 55; 32; 56; 32; 50; 48; 53; 49; 10; 55; 32; 57; 32; 49; 51; 57; 51; 10;
  56; 32; 48; 32; 45; 53; 50; 50; 10; 56; 32; 49; 32; 51; 51; 53; 52; 10; 56; 32; 50; 32; 50; 48; 51; 55; 10; 56; 32; 51; 32; 45; 50; 53; 52; 50; 10; 56; 32; 52; 32; 51; 48; 55; 49; 10; 56; 32; 53; 32; 50; 54; 51; 49; 10; 56; 32; 54; 32; 45;
  51; 53; 50; 10; 56; 32; 55; 32; 50; 56; 52; 55; 10; 56; 32; 56; 32; 49; 49; 51; 52; 10; 56; 32; 57; 32; 49; 50; 53; 54; 10; 57; 32; 48; 32; 45; 57; 55; 53; 10; 57; 32; 49; 32; 50; 52; 57; 56; 10; 57; 32; 50; 32; 49; 54; 57; 48; 10; 57; 32;
  51; 32; 45; 49; 53; 50; 51; 10; 57; 32; 52; 32; 51; 48; 50; 51; 10; 57; 32; 53; 32; 51; 49; 51; 57; 10; 57; 32; 54; 32; 50; 53; 54; 50; 10; 57; 32; 55; 32; 51; 57; 54; 50; 10; 57; 32; 56; 32; 52; 49; 56; 10; 57; 32; 57; 32; 45; 50; 52; 57;
  48; 10].
(** tests/resources/dict/user.csv *)
Definition test_user_csv : bytes :=
  [227; 129; 180; 227; 130; 137; 227; 130; 139; 44; 56; 44; 56; 44; 45; 51; 50; 55; 54; 56; 44; 227; 129; 180; 227; 130; 137; 227; 130; 139; 44; 229; 144; 141; 232; 169; 158; 44; 230; 153; 174; 233; 128; 154; 229; 144; 141; 232; 169; 158; 44; 228; 184; 128; 232; 136; 172; 44; 42; 44;
  42; 44; 42; 44; 227; 131; 148; 227; 131; 169; 227; 131; 171; 44; 227; 129; 180; 227; 130; 137; 227; 130; 139; 44; 42; 44; 65; 44; 42; 44; 42; 44; 42; 44; 42; 10; 229; 186; 156; 44; 56; 44; 56; 44; 50; 57; 49; 52; 44; 229; 186; 156; 44; 229; 144; 141; 232; 169; 158; 44;
  230; 153; 174; 233; 128; 154; 229; 144; 141; 232; 169; 158; 44; 228; 184; 128; 232; 136; 172; 44; 42; 44; 42; 44; 42; 44; 227; 131; 149; 44; 229; 186; 156; 44; 42; 44; 65; 44; 42; 44; 42; 44; 42; 44; 42; 10; 230; 157; 177; 228; 186; 172; 229; 186; 156; 44; 54; 44; 54; 44;
  50; 56; 49; 54; 44; 230; 157; 177; 228; 186; 172; 229; 186; 156; 44; 229; 144; 141; 232; 169; 158; 44; 229; 155; 186; 230; 156; 137; 229; 144; 141; 232; 169; 158; 44; 229; 156; 176; 229; 144; 141; 44; 228; 184; 128; 232; 136; 172; 44; 42; 44; 42; 44; 227; 131; 136; 227; 130; 166; 227;
  130; 173; 227; 131; 167; 227; 130; 166; 227; 131; 149; 44; 230; 157; 177; 228; 186; 172; 229; 186; 156; 44; 42; 44; 66; 44; 53; 47; 85; 49; 44; 42; 44; 53; 47; 85; 49; 44; 49; 47; 51; 10; 227; 129; 153; 227; 129; 160; 227; 129; 161; 44; 54; 44; 54; 44; 50; 56; 49; 54;
  44; 227; 129; 153; 227; 129; 160; 227; 129; 161; 44; 232; 162; 171; 229; 173; 144; 230; 164; 141; 231; 137; 169; 233; 150; 128; 44; 229; 143; 140; 229; 173; 144; 232; 145; 137; 230; 164; 141; 231; 137; 169; 231; 182; 177; 44; 227; 131; 160; 227; 130; 175; 227; 131; 173; 227; 130; 184; 231; 155;
  174; 44; 227; 131; 159; 227; 130; 171; 227; 131; 179; 231; 167; 145; 44; 227; 131; 159; 227; 130; 171; 227; 131; 179; 229; 177; 158; 44; 227; 130; 185; 227; 131; 128; 227; 131; 129; 44; 227; 130; 185; 227; 131; 128; 227; 131; 129; 44; 227; 129; 153; 227; 129; 160; 227; 129; 161; 44; 42; 44;
  65; 44; 42; 44; 42; 44; 42; 44; 42; 10].
(** tests/resources/dict/user2.csv *)
Definition test_user2_csv : bytes :=
  [227; 129; 180; 227; 129; 149; 227; 130; 139; 44; 56; 44; 56; 44; 45; 51; 50; 55; 54; 56; 44; 227; 129; 180; 227; 129; 149; 227; 130; 139; 44; 229; 144; 141; 232; 169; 158; 44; 230; 153; 174; 233; 128; 154; 229; 144; 141; 232; 169; 158; 44; 228; 184; 128; 232; 136; 172; 44; 42; 44;
  42; 44; 42; 44; 227; 131; 148; 227; 130; 181; 227; 131; 171; 44; 227; 129; 180; 227; 129; 149; 227; 130; 139; 44; 42; 44; 65; 44; 42; 44; 42; 44; 42; 44; 42; 10; 227; 129; 139; 227; 129; 188; 227; 129; 153; 44; 54; 44; 54; 44; 50; 56; 49; 54; 44; 227; 129; 139; 227; 129;
  188; 227; 129; 153; 44; 232; 162; 171; 229; 173; 144; 230; 164; 141; 231; 137; 169; 233; 150; 128; 44; 229; 143; 140; 229; 173; 144; 232; 145; 137; 230; 164; 141; 231; 137; 169; 231; 182; 177; 44; 227; 131; 160; 227; 130; 175; 227; 131; 173; 227; 130; 184; 231; 155; 174; 44; 227; 131; 159; 227;
  130; 171; 227; 131; 179; 231; 167; 145; 44; 227; 131; 159; 227; 130; 171; 227; 131; 179; 229; 177; 158; 44; 227; 130; 171; 227; 131; 156; 227; 130; 185; 44; 227; 130; 171; 227; 131; 156; 227; 130; 185; 44; 227; 129; 139; 227; 129; 188; 227; 129; 153; 44; 42; 44; 65; 44; 42; 44; 42; 44;
  42; 44; 42; 10].
(** tests/resources/sudachi.json *)
Definition test_settings : conf :=
  [([115; 121; 115; 116; 101; 109; 68; 105; 99; 116], JStr [115; 121; 115; 116; 101; 109; 46; 100; 105; 99]);
  ([117; 115; 101; 114; 68; 105; 99; 116], JList [JStr [117; 115; 101; 114; 46; 100; 105; 99]]);
  ([99; 104; 97; 114; 97; 99; 116; 101; 114; 68; 101; 102; 105; 110; 105; 116; 105; 111; 110; 70; 105; 108; 101], JStr [99; 104; 97; 114; 46; 100; 101; 102]);
  ([105; 110; 112; 117; 116; 84; 101; 120; 116; 80; 108; 117; 103; 105; 110], JList [JObj [([99; 108; 97; 115; 115], JStr [115; 117; 100; 97; 99; 104; 105; 112; 121; 46; 112; 108; 117; 103; 105; 110; 46; 105; 110; 112; 117; 116; 95; 116; 101; 120; 116; 46; 68; 101; 102; 97; 117; 108; 116; 73; 110; 112; 117; 116; 84; 101; 120; 116; 80; 108; 117; 103; 105; 110])]]);
  ([111; 111; 118; 80; 114; 111; 118; 105; 100; 101; 114; 80; 108; 117; 103; 105; 110], JList [JObj [([99; 108; 97; 115; 115], JStr [115; 117; 100; 97; 99; 104; 105; 112; 121; 46; 112; 108; 117; 103; 105; 110; 46; 111; 111; 118; 46; 83; 105; 109; 112; 108; 101; 79; 111; 118; 80; 114; 111; 118; 105; 100; 101; 114; 80; 108; 117; 103; 105; 110]);
  ([111; 111; 118; 80; 79; 83], JList [JStr [21517; 35422]; JStr [26222; 36890; 21517; 35422]; JStr [19968; 33324]; JStr [42]; JStr [42]; JStr [42]]);
  ([108; 101; 102; 116; 73; 100], JNum 8);
  ([114; 105; 103; 104; 116; 73; 100], JNum 8);
  ([99; 111; 115; 116], JNum 6000)]]);
  ([112; 97; 116; 104; 82; 101; 119; 114; 105; 116; 101; 80; 108; 117; 103; 105; 110], JList [JObj [([99; 108; 97; 115; 115], JStr [115; 117; 100; 97; 99; 104; 105; 112; 121; 46; 112; 108; 117; 103; 105; 110; 46; 112; 97; 116; 104; 95; 114; 101; 119; 114; 105; 116; 101; 46; 74; 111; 105; 110; 78; 117; 109; 101; 114; 105; 99; 80; 108; 117; 103; 105; 110]);
  ([101; 110; 97; 98; 108; 101; 78; 111; 114; 109; 97; 108; 105; 122; 101], JBool true)]; JObj [([99; 108; 97; 115; 115], JStr [115; 117; 100; 97; 99; 104; 105; 112; 121; 46; 112; 108; 117; 103; 105; 110; 46; 112; 97; 116; 104; 95; 114; 101; 119; 114; 105; 116; 101; 46; 74; 111; 105; 110; 75; 97; 116; 97; 107; 97; 110; 97; 79; 111; 118; 80; 108; 117; 103; 105; 110]);
  ([111; 111; 118; 80; 79; 83], JList [JStr [21517; 35422]; JStr [26222; 36890; 21517; 35422]; JStr [19968; 33324]; JStr [42]; JStr [42]; JStr [42]]);
  ([109; 105; 110; 76; 101; 110; 103; 116; 104], JNum 3)]])].
(** tests/resources/numeric_sudachi.json *)
Definition numeric_settings : conf :=
  [([115; 121; 115; 116; 101; 109; 68; 105; 99; 116], JStr [115; 121; 115; 116; 101; 109; 46; 100; 105; 99]);
  ([117; 115; 101; 114; 68; 105; 99; 116], JList [JStr [117; 115; 101; 114; 46; 100; 105; 99]]);
  ([99; 104; 97; 114; 97; 99; 116; 101; 114; 68; 101; 102; 105; 110; 105; 116; 105; 111; 110; 70; 105; 108; 101], JStr [106; 111; 105; 110; 110; 117; 109; 101; 114; 105; 99; 47; 99; 104; 97; 114; 46; 100; 101; 102]);
  ([105; 110; 112; 117; 116; 84; 101; 120; 116; 80; 108; 117; 103; 105; 110], JList [JObj [([99; 108; 97; 115; 115], JStr [115; 117; 100; 97; 99; 104; 105; 112; 121; 46; 112; 108; 117; 103; 105; 110; 46; 105; 110; 112; 117; 116; 95; 116; 101; 120; 116; 46; 68; 101; 102; 97; 117; 108; 116; 73; 110; 112; 117; 116; 84; 101; 120; 116; 80; 108; 117; 103; 105; 110])]]);
  ([111; 111; 118; 80; 114; 111; 118; 105; 100; 101; 114; 80; 108; 117; 103; 105; 110], JList [JObj [([99; 108; 97; 115; 115], JStr [115; 117; 100; 97; 99; 104; 105; 112; 121; 46; 112; 108; 117; 103; 105; 110; 46; 111; 111; 118; 46; 83; 105; 109; 112; 108; 101; 79; 111; 118; 80; 114; 111; 118; 105; 100; 101; 114; 80; 108; 117; 103; 105; 110]);
  ([111; 111; 118; 80; 79; 83], JList [JStr [21517; 35422]; JStr [26222; 36890; 21517; 35422]; JStr [19968; 33324]; JStr [42]; JStr [42]; JStr [42]]);
  ([108; 101; 102; 116; 73; 100], JNum 8);
  ([114; 105; 103; 104; 116; 73; 100], JNum 8);
  ([99; 111; 115; 116], JNum 6000)]]);
  ([112; 97; 116; 104; 82; 101; 119; 114; 105; 116; 101; 80; 108; 117; 103; 105; 110], JList [JObj [([99; 108; 97; 115; 115], JStr [115; 117; 100; 97; 99; 104; 105; 112; 121; 46; 112; 108; 117; 103; 105; 110; 46; 112; 97; 116; 104; 95; 114; 101; 119; 114; 105; 116; 101; 46; 74; 111; 105; 110; 78; 117; 109; 101; 114; 105; 99; 80; 108; 117; 103; 105; 110]);
  ([101; 110; 97; 98; 108; 101; 78; 111; 114; 109; 97; 108; 105; 122; 101], JBool true)]; JObj [([99; 108; 97; 115; 115], JStr [115; 117; 100; 97; 99; 104; 105; 112; 121; 46; 112; 108; 117; 103; 105; 110; 46; 112; 97; 116; 104; 95; 114; 101; 119; 114; 105; 116; 101; 46; 74; 111; 105; 110; 75; 97; 116; 97; 107; 97; 110; 97; 79; 111; 118; 80; 108; 117; 103; 105; 110]);
  ([111; 111; 118; 80; 79; 83], JList [JStr [21517; 35422]; JStr [26222; 36890; 21517; 35422]; JStr [19968; 33324]; JStr [42]; JStr [42]; JStr [42]]);
  ([109; 105; 110; 76; 101; 110; 103; 116; 104], JNum 3)]])].
