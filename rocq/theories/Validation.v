(** The model against the project's own tests: the literals of /repo/tests, and what
    the tests say about them.  Written by tools/gen_validation.py, which reads the
    tests as text.  Everything here is closed computation: a check of the model
    against observed device data, not a property. *)
From Coq Require Import String.
From Verif Require Import Py PyTime PyFloat Utils Frames Application Aes Security ParamLang Parameters.
From Verif Require Import Schema Schemas ClassVars PyText Json SpecSchema.
Open Scope string_scope. Open Scope list_scope. Open Scope Z_scope.

(** tests/test_utils.py:8-45 *)
Example test_lrc : calculate_lrc [254; 132; 108; 15; 0; 0; 0; 0; 0; 0; 0] = 0x19 /\ calculate_lrc [254; 134; 108; 23; 0; 0; 0; 0; 2; 0; 2; 16; 51; 18; 48; 5; 6; 12; 45] = 0x20.
Proof. vm_compute. auto. Qed.
Example test_checksum : calculate_checksum [254; 132; 108; 15; 0; 0; 0; 0; 0; 0; 0] = 0xFD /\ calculate_checksum [254; 134; 108; 23; 0; 0; 0; 0; 2; 0; 2; 16; 51; 18; 48; 5; 6; 12; 45] = 0xD4.
Proof. vm_compute. auto. Qed.
Example test_drc : calculate_drc [254; 132; 108; 15; 0; 0; 0; 0; 0; 0; 0] = 0x19 /\ calculate_drc [254; 134; 108; 23; 0; 0; 0; 0; 2; 0; 2; 16; 51; 18; 48; 5; 6; 12; 45] = 0x9B.
Proof. vm_compute. auto. Qed.
(** tests/test_utils.py:48-96 *)
Definition plain_0 : bytes :=
  [2; 254; 132; 100; 25; 0; 0; 0; 0; 0; 0; 0; 234; 3; 137; 163; 63; 37; 171; 65; 119; 105; 42; 72; 248; 13].
Definition escaped_0 : bytes :=
  [2; 254; 132; 100; 25; 0; 0; 0; 0; 0; 0; 0; 234; 3; 137; 163; 63; 37; 171; 65; 119; 105; 42; 72; 248; 13].

Example test_escape_0 : escape_characters plain_0 = Ok escaped_0 /\ return_characters escaped_0 = Ok plain_0 /\
  Ok [calculate_lrc (slice 1 (-4) plain_0); calculate_checksum (slice 1 (-4) plain_0); calculate_drc (slice 1 (-4) plain_0)] =
  Ok (slice (-4) (-1) plain_0).
Proof. vm_compute. auto. Qed.
Definition plain_1 : bytes :=
  [2; 254; 134; 100; 53; 0; 0; 0; 0; 2; 0; 2; 16; 51; 18; 48; 5; 6; 141; 146; 86; 24; 57; 1; 0; 0; 0; 0; 0; 0; 0; 0;
   0; 0; 0; 0; 166; 33; 126; 8; 168; 11; 110; 63; 193; 1; 0; 12; 45; 71; 231; 103; 187; 13].
Definition escaped_1 : bytes :=
  [2; 254; 134; 100; 53; 0; 0; 0; 0; 2; 0; 2; 16; 51; 18; 48; 5; 6; 27; 15; 146; 86; 24; 57; 1; 0; 0; 0; 0; 0; 0; 0;
   0; 0; 0; 0; 0; 166; 33; 126; 8; 168; 11; 110; 63; 193; 1; 0; 12; 45; 71; 231; 103; 187; 13].

Example test_escape_1 : escape_characters plain_1 = Ok escaped_1 /\ return_characters escaped_1 = Ok plain_1 /\
  Ok [calculate_lrc (slice 1 (-4) plain_1); calculate_checksum (slice 1 (-4) plain_1); calculate_drc (slice 1 (-4) plain_1)] =
  Ok (slice (-4) (-1) plain_1).
Proof. vm_compute. auto. Qed.
Example test_return_characters_2 : return_characters [27; 27; 14] = Ok [27; 14].
Proof. reflexivity. Qed.
(** tests/test_utils.py:99-123 *)
Example test_datetime :
  bytes_to_datetime [16; 51; 18; 48; 5; 6] = Ok (mk_datetime 2006 5 30 12 33 10, false, false) /\
  bytes_to_datetime [0; 73; 83; 20; 2; 34] = Ok (mk_datetime 2022 2 14 13 49 0, false, true) /\
  datetime_to_bytes (mk_datetime 2006 5 30 12 33 10) = Ok [16; 51; 18; 48; 5; 6].
Proof. vm_compute. auto. Qed.
Example test_pretty_text : pretty_text [77; 74; 47; 109; 51; 0; 51; 0] = [77; 74; 47; 109; 51; 32; 51].
Proof. vm_compute. reflexivity. Qed.

(** tests/test_frames.py *)
Definition encrypted_response : bytes :=
  [2; 254; 135; 125; 146; 3; 0; 0; 0; 1; 0; 0; 117; 3; 3; 0; 26; 252; 6; 96; 164; 156; 71; 93; 159; 164; 76; 88; 91;
   160; 45; 255; 226; 143; 2; 205; 234; 230; 235; 48; 183; 99; 161; 149; 23; 25; 218; 145; 234; 224; 191; 8; 25; 123;
   245; 115; 158; 228; 15; 82; 113; 206; 219; 11; 114; 12; 41; 148; 151; 124; 78; 242; 35; 200; 164; 12; 137; 54; 60;
   155; 250; 195; 67; 52; 151; 200; 191; 14; 18; 250; 78; 189; 124; 151; 109; 236; 159; 8; 120; 221; 124; 145; 192;
   240; 42; 115; 132; 24; 192; 58; 9; 211; 213; 204; 207; 109; 204; 96; 78; 220; 220; 4; 76; 54; 150; 250; 29; 254;
   184; 128; 184; 118; 96; 136; 140; 207; 201; 70; 202; 154; 5; 225; 180; 57; 170; 133; 30; 221; 182; 118; 133; 137;
   97; 149; 40; 164; 184; 160; 11; 83; 174; 115; 89; 118; 83; 129; 207; 118; 10; 194; 82; 245; 86; 173; 142; 232; 130;
   234; 101; 44; 7; 188; 99; 174; 247; 135; 156; 26; 88; 54; 19; 41; 59; 146; 152; 27; 15; 22; 87; 1; 63; 99; 222;
   245; 170; 159; 252; 2; 172; 113; 89; 232; 60; 208; 172; 242; 195; 47; 170; 156; 69; 247; 22; 130; 111; 186; 61; 17;
   1; 209; 122; 231; 52; 78; 251; 142; 246; 34; 242; 113; 61; 225; 35; 196; 38; 91; 155; 68; 106; 70; 59; 146; 95; 30;
   160; 243; 145; 91; 175; 150; 95; 41; 201; 94; 126; 27; 27; 18; 62; 76; 57; 223; 169; 31; 83; 193; 77; 155; 122;
   210; 16; 222; 255; 233; 100; 242; 38; 78; 210; 76; 49; 242; 107; 41; 194; 83; 188; 237; 132; 21; 175; 119; 97; 32;
   21; 10; 67; 210; 2; 218; 83; 92; 159; 170; 246; 157; 200; 218; 24; 112; 49; 131; 176; 197; 108; 17; 156; 219; 40;
   67; 62; 128; 156; 254; 77; 36; 96; 218; 16; 81; 217; 154; 232; 107; 221; 111; 204; 232; 60; 133; 161; 117; 27; 15;
   60; 225; 193; 102; 110; 19; 237; 138; 0; 204; 118; 192; 53; 159; 34; 85; 155; 116; 2; 180; 113; 212; 175; 114; 119;
   144; 135; 236; 126; 53; 162; 253; 126; 43; 233; 230; 205; 0; 62; 33; 131; 47; 181; 28; 64; 245; 188; 106; 225; 182;
   2; 99; 254; 224; 36; 89; 238; 152; 125; 71; 184; 26; 153; 4; 127; 149; 231; 18; 174; 7; 178; 101; 54; 17; 98; 17;
   127; 188; 72; 93; 53; 174; 171; 17; 191; 164; 24; 117; 43; 159; 39; 157; 155; 172; 206; 181; 123; 123; 200; 202;
   54; 169; 241; 196; 61; 30; 156; 160; 24; 23; 178; 2; 98; 193; 193; 61; 86; 166; 153; 249; 90; 87; 76; 111; 42; 224;
   70; 8; 26; 231; 220; 99; 127; 97; 38; 139; 116; 181; 241; 206; 56; 159; 193; 157; 131; 26; 21; 202; 2; 206; 125;
   179; 72; 7; 143; 111; 188; 46; 12; 181; 98; 27; 27; 14; 179; 158; 177; 144; 193; 110; 184; 209; 63; 45; 58; 213;
   216; 216; 27; 27; 8; 189; 197; 178; 155; 42; 80; 31; 8; 177; 92; 247; 60; 76; 27; 14; 106; 234; 129; 159; 188; 83;
   55; 27; 27; 187; 73; 217; 127; 138; 99; 32; 112; 190; 173; 94; 5; 92; 8; 123; 245; 34; 187; 47; 36; 61; 179; 187;
   181; 247; 236; 221; 254; 130; 138; 16; 168; 14; 24; 96; 192; 155; 132; 89; 99; 198; 3; 219; 196; 252; 208; 61; 53;
   101; 122; 153; 193; 80; 88; 164; 212; 61; 69; 11; 209; 111; 128; 8; 35; 208; 130; 114; 127; 108; 201; 80; 197; 192;
   204; 14; 6; 34; 89; 247; 240; 56; 179; 219; 209; 3; 126; 174; 210; 156; 225; 128; 121; 24; 8; 241; 20; 33; 91; 40;
   116; 154; 71; 61; 112; 111; 78; 121; 112; 196; 75; 36; 111; 83; 94; 210; 104; 8; 184; 41; 94; 60; 115; 71; 167; 16;
   42; 91; 27; 15; 114; 204; 201; 172; 33; 190; 191; 226; 117; 94; 56; 50; 206; 217; 166; 72; 83; 243; 14; 7; 159;
   134; 156; 214; 187; 132; 219; 70; 17; 109; 173; 116; 183; 9; 37; 16; 3; 209; 86; 179; 135; 142; 6; 154; 178; 48;
   87; 111; 238; 202; 108; 144; 225; 99; 204; 249; 205; 167; 238; 250; 65; 124; 69; 139; 142; 222; 243; 149; 117; 172;
   55; 204; 98; 162; 224; 64; 7; 253; 25; 37; 39; 153; 95; 242; 35; 195; 7; 197; 33; 46; 200; 147; 31; 71; 79; 181;
   102; 122; 9; 223; 21; 183; 33; 219; 121; 39; 214; 133; 212; 241; 161; 220; 178; 208; 147; 25; 128; 158; 79; 11; 28;
   183; 24; 67; 223; 185; 114; 96; 205; 146; 244; 79; 77; 82; 144; 135; 40; 167; 129; 246; 145; 78; 76; 232; 105; 49;
   59; 195; 85; 117; 156; 236; 27; 15; 96; 107; 103; 138; 138; 108; 249; 176; 250; 119; 200; 66; 57; 23; 241; 57; 143;
   254; 215; 118; 150; 249; 57; 0; 226; 186; 29; 225; 118; 11; 0; 215; 223; 12; 7; 131; 153; 62; 23; 131; 242; 22;
   238; 204; 242; 154; 93; 34; 214; 247; 135; 83; 173; 133; 193; 167; 168; 181; 137; 92; 28; 112; 36; 43; 225; 75;
   239; 47; 151; 151; 114; 7; 79; 80; 81; 85; 189; 38; 79; 225; 100; 13].

Example test_failing_lrc : exists t f, return_characters encrypted_response = Ok t /\
  response_from_bytes 0x87 t = Ok f /\ len (f_data f) = 899.
Proof. eexists. eexists. split; [vm_compute; reflexivity|]. split; [vm_compute; reflexivity|]. vm_compute. reflexivity. Qed.

(** tests/test_application.py:8-13 *)
Example test_read_time_response : exists f, response_from_bytes 0x86 [2; 254; 134; 108; 23; 0; 0; 0; 0; 2; 0; 2; 16; 51; 18; 48; 5; 6; 12; 45; 32; 212; 155; 13] = Ok f /\ f_service f = READ_DEVICE_TIME /\
  read_time_from_bytes (f_data f) = Ok (ReadTimeResponse (mk_datetime 2006 5 30 12 33 10) [12] false false []).
Proof. eexists. split; [vm_compute; reflexivity|]. vm_compute. auto. Qed.

(** tests/test_application.py:16-85: the numbers are those the documentation of the fields gives for these bytes *)
Definition parameters_page_1 : bytes :=
  [1; 0; 13; 0; 0; 75; 0; 30; 0; 0; 1; 0; 6; 0; 10; 0; 155; 80; 114; 101; 115; 115; 117; 114; 101; 32; 112; 0; 32;
   125; 32; 125; 40; 81; 125; 33; 125; 32; 125; 32; 98; 97; 114; 0; 0; 0; 0; 0; 154; 0; 154; 58; 0; 0; 0; 0; 205; 204;
   76; 63; 0; 0; 140; 66; 78; 121; 135; 100; 158; 2; 90; 0; 0; 0; 10; 0; 0; 0; 0; 125; 75; 0; 30; 1; 0; 2; 0; 8; 0;
   12; 0; 155; 84; 101; 109; 112; 101; 114; 97; 116; 117; 114; 101; 32; 116; 0; 112; 112; 32; 66; 52; 125; 32; 125;
   32; 176; 67; 0; 0; 0; 0; 0; 0; 150; 0; 22; 59; 0; 0; 72; 194; 0; 0; 200; 193; 0; 0; 112; 66; 173; 84; 97; 100; 162;
   2; 92; 0; 0; 0; 12; 0; 0; 0; 0; 32; 75; 0; 30; 2; 0; 21; 0; 10; 0; 14; 0; 137; 73; 110; 116; 101; 114; 110; 97;
   108; 32; 116; 101; 109; 112; 46; 32; 65; 51; 0; 193; 69; 120; 116; 101; 176; 67; 0; 0; 0; 0; 0; 0; 0; 0; 0; 62; 0;
   0; 0; 195; 0; 0; 32; 194; 0; 0; 170; 66; 0; 0; 0; 0; 156; 2; 0; 0; 0; 0; 0; 0; 0; 0; 0; 111; 75; 0; 30; 3; 0; 22;
   0; 12; 0; 16; 0; 137; 66; 97; 116; 116; 101; 114; 121; 32; 118; 111; 108; 116; 97; 103; 101; 32; 65; 52; 0; 49;
   125; 32; 149; 86; 0; 0; 0; 0; 0; 0; 0; 104; 232; 159; 59; 0; 0; 0; 0; 0; 0; 0; 0; 0; 0; 144; 64; 0; 0; 0; 0; 156;
   2; 0; 0; 0; 0; 0; 0; 0; 0; 0; 125; 75; 0; 30; 4; 0; 23; 0; 14; 0; 18; 0; 129; 66; 97; 116; 116; 101; 114; 121; 32;
   99; 97; 112; 97; 99; 105; 116; 121; 32; 65; 53; 0; 114; 125; 32; 37; 0; 0; 0; 0; 0; 0; 0; 200; 0; 200; 58; 0; 0; 0;
   0; 0; 0; 0; 0; 0; 0; 200; 66; 0; 0; 0; 0; 156; 2; 0; 0; 0; 0; 0; 0; 0; 0; 0; 32; 75; 0; 30; 5; 0; 26; 0; 16; 0; 20;
   0; 129; 71; 83; 77; 32; 115; 105; 103; 110; 97; 108; 32; 65; 54; 0; 125; 32; 125; 32; 125; 32; 125; 32; 240; 37; 0;
   0; 0; 0; 0; 0; 0; 200; 0; 200; 58; 0; 0; 0; 0; 0; 0; 0; 0; 0; 0; 200; 66; 0; 0; 0; 0; 156; 2; 0; 0; 0; 0; 0; 0; 0;
   0; 0; 32; 70; 0; 31; 0; 0; 160; 0; 144; 2; 0; 0; 80; 0; 129; 67; 111; 118; 101; 114; 32; 66; 49; 0; 32; 125; 43;
   125; 32; 125; 32; 125; 32; 234; 120; 148; 125; 45; 156; 2; 0; 0; 0; 0; 0; 32; 32; 32; 32; 32; 32; 67; 108; 111;
   115; 101; 100; 0; 32; 32; 32; 32; 32; 32; 79; 112; 101; 110; 101; 100; 0; 75; 0; 48; 1; 0; 30; 0; 145; 2; 0; 0; 81;
   0; 81; 67; 97; 108; 108; 32; 119; 105; 110; 100; 111; 119; 32; 66; 50; 0; 0; 34; 125; 32; 125; 32; 83; 125; 1; 33;
   0; 184; 86; 0; 0; 0; 0; 0; 0; 4; 32; 32; 32; 32; 32; 110; 111; 32; 99; 97; 108; 108; 0; 32; 32; 32; 32; 32; 32; 97;
   99; 116; 105; 118; 101; 0; 75; 0; 48; 2; 0; 31; 0; 146; 2; 0; 0; 82; 0; 73; 83; 101; 114; 118; 105; 99; 101; 32;
   119; 105; 110; 100; 111; 119; 32; 66; 51; 0; 0; 58; 165; 125; 45; 1; 65; 0; 0; 0; 0; 0; 8; 81; 1; 0; 0; 32; 32;
   110; 111; 32; 115; 101; 114; 118; 105; 99; 101; 0; 32; 32; 32; 32; 32; 32; 97; 99; 116; 105; 118; 101; 0; 70; 0;
   31; 3; 0; 28; 0; 147; 2; 0; 0; 83; 0; 193; 77; 111; 100; 101; 109; 32; 112; 111; 119; 101; 114; 32; 115; 117; 112;
   112; 32; 66; 52; 0; 0; 0; 0; 156; 2; 0; 0; 0; 0; 0; 32; 32; 32; 32; 32; 32; 32; 32; 32; 79; 102; 102; 0; 32; 32;
   32; 32; 32; 32; 32; 32; 32; 32; 79; 110; 0; 70; 0; 31; 4; 0; 27; 0; 148; 2; 0; 0; 84; 0; 193; 69; 120; 116; 101;
   114; 110; 97; 108; 32; 112; 111; 119; 101; 114; 32; 66; 53; 0; 53; 0; 111; 115; 101; 156; 2; 0; 0; 0; 0; 0; 32; 32;
   32; 32; 80; 111; 119; 101; 114; 32; 79; 75; 0; 32; 80; 111; 119; 101; 114; 32; 101; 114; 114; 111; 114; 0; 70; 0;
   31; 5; 0; 49; 0; 149; 2; 0; 0; 85; 0; 193; 69; 120; 116; 46; 112; 111; 119; 101; 114; 32; 109; 111; 100; 101; 109;
   32; 66; 54; 0; 54; 0; 32; 110; 156; 2; 0; 0; 0; 0; 0; 32; 32; 32; 32; 80; 111; 119; 101; 114; 32; 79; 75; 0; 32;
   80; 111; 119; 101; 114; 32; 101; 114; 114; 111; 114; 0; 89; 0; 53; 0; 0; 3; 0; 18; 0; 22; 0; 151; 80; 114; 105;
   109; 97; 114; 121; 32; 118; 111; 108; 117; 109; 101; 32; 86; 109; 0; 109; 0; 81; 1; 0; 109; 51; 0; 0; 0; 0; 0; 0;
   0; 0; 0; 0; 0; 0; 240; 63; 240; 63; 32; 32; 156; 2; 0; 0; 0; 0; 14; 0; 10; 0; 0; 0; 0; 0; 0; 0; 0; 0; 0; 0; 0; 0;
   0; 0; 0; 0; 0; 0; 0; 0; 11; 0; 0; 0].
Definition parameters_page_0 : bytes :=
  [0; 0; 11; 0; 0; 14; 1; 0; 131; 93; 33; 255; 115; 49; 46; 49; 54; 0; 16; 2; 50; 49; 49; 49; 51; 55; 95; 48; 48; 48;
   48; 48; 48; 48; 48; 49; 0; 12; 70; 19; 30; 16; 14; 102; 166; 202; 66; 0; 0; 0; 0; 2; 205; 204; 140; 63; 179; 12;
   65; 63; 53; 222; 46; 66; 10; 215; 35; 63; 0; 0; 0; 0; 0; 0; 0; 0; 0; 0; 0; 0; 0; 0; 0; 0; 0; 0; 0; 0; 0; 0; 0; 0;
   0; 0; 0; 0; 3; 24; 196; 66; 138; 31; 67; 63; 213; 9; 136; 62; 132; 158; 77; 61; 172; 139; 91; 61; 198; 220; 53; 60;
   0; 111; 1; 60; 10; 215; 35; 60; 0; 0; 0; 0; 0; 0; 0; 0; 0; 0; 0; 0; 0; 0; 0; 0; 88; 0; 14; 0; 72; 0; 52; 0; 152; 2;
   88; 0; 0; 0; 3; 0; 0; 8; 0; 2; 3; 3; 0; 8; 3; 0; 6; 104; 166; 202; 66; 0; 0; 0; 0; 0; 0; 0; 0; 0; 0; 0; 0; 0; 0; 0;
   0; 0; 0; 0; 0; 0; 42; 0; 7; 98; 97; 114; 0; 0; 0; 0; 0; 32; 176; 67; 0; 0; 0; 0; 0; 0; 161; 109; 0; 0; 0; 0; 0; 0;
   0; 144; 77; 74; 47; 109; 51; 0; 51; 0; 1; 1; 0; 0; 0; 0; 0; 65; 0; 53; 224; 255; 127; 255; 119; 238; 18; 0; 0; 0;
   0; 0; 0; 0; 0; 0; 49; 46; 49; 54; 0; 154; 250; 0; 0; 0; 0; 229; 33; 0; 0; 75; 0; 30; 0; 0; 1; 0; 6; 0; 10; 0; 155;
   80; 114; 101; 115; 115; 117; 114; 101; 32; 112; 0; 0; 0; 0; 0; 0; 0; 0; 0; 0; 0; 0; 0; 98; 97; 114; 0; 0; 0; 0; 0;
   154; 0; 154; 58; 0; 0; 0; 0; 205; 204; 76; 63; 0; 0; 140; 66; 78; 121; 135; 100; 158; 2; 90; 0; 0; 0; 10; 0; 0; 0;
   0; 0; 75; 0; 30; 1; 0; 2; 0; 8; 0; 12; 0; 155; 84; 101; 109; 112; 101; 114; 97; 116; 117; 114; 101; 32; 116; 0; 0;
   0; 0; 0; 0; 0; 0; 0; 0; 176; 67; 0; 0; 0; 0; 0; 0; 150; 0; 22; 59; 0; 0; 72; 194; 0; 0; 200; 193; 0; 0; 112; 66;
   173; 84; 97; 100; 162; 2; 92; 0; 0; 0; 12; 0; 0; 0; 0; 0; 75; 0; 30; 2; 0; 21; 0; 10; 0; 14; 0; 137; 73; 110; 116;
   101; 114; 110; 97; 108; 32; 116; 101; 109; 112; 46; 32; 65; 51; 0; 0; 0; 0; 0; 0; 176; 67; 0; 0; 0; 0; 0; 0; 0; 0;
   0; 62; 0; 0; 0; 195; 0; 0; 32; 194; 0; 0; 170; 66; 0; 0; 0; 0; 156; 2; 0; 0; 0; 0; 0; 0; 0; 0; 0; 0; 75; 0; 30; 3;
   0; 22; 0; 12; 0; 16; 0; 137; 66; 97; 116; 116; 101; 114; 121; 32; 118; 111; 108; 116; 97; 103; 101; 32; 65; 52; 0;
   0; 0; 0; 0; 86; 0; 0; 0; 0; 0; 0; 0; 104; 232; 159; 59; 0; 0; 0; 0; 0; 0; 0; 0; 0; 0; 144; 64; 0; 0; 0; 0; 156; 2;
   0; 0; 0; 0; 0; 0; 0; 0; 0; 0; 75; 0; 30; 4; 0; 23; 0; 14; 0; 18; 0; 129; 66; 97; 116; 116; 101; 114; 121; 32; 99;
   97; 112; 97; 99; 105; 116; 121; 32; 65; 53; 0; 0; 0; 0; 37; 0; 0; 0; 0; 0; 0; 0; 200; 0; 200; 58; 0; 0; 0; 0; 0; 0;
   0; 0; 0; 0; 200; 66; 0; 0; 0; 0; 156; 2; 0; 0; 0; 0; 0; 0; 0; 0; 0; 0; 75; 0; 30; 5; 0; 26; 0; 16; 0; 20; 0; 129;
   71; 83; 77; 32; 115; 105; 103; 110; 97; 108; 32; 65; 54; 0; 0; 0; 0; 0; 0; 0; 0; 0; 0; 37; 0; 0; 0; 0; 0; 0; 0;
   200; 0; 200; 58; 0; 0; 0; 0; 0; 0; 0; 0; 0; 0; 200; 66; 0; 0; 0; 0; 156; 2; 0; 0; 0; 0; 0; 0; 0; 0; 0; 0; 70; 0;
   31; 0; 0; 160; 0; 144; 2; 0; 0; 80; 0; 129; 67; 111; 118; 101; 114; 32; 66; 49; 0; 0; 0; 0; 0; 0; 0; 0; 0; 0; 0; 0;
   0; 0; 0; 156; 2; 0; 0; 0; 0; 0; 32; 32; 32; 32; 32; 32; 67; 108; 111; 115; 101; 100; 0; 32; 32; 32; 32; 32; 32; 79;
   112; 101; 110; 101; 100; 0; 75; 0; 48; 1; 0; 30; 0; 145; 2; 0; 0; 81; 0; 81; 67; 97; 108; 108; 32; 119; 105; 110;
   100; 111; 119; 32; 66; 50; 0; 0; 0; 0; 0; 0; 0; 0; 0; 1; 33; 0; 184; 86; 0; 0; 0; 0; 0; 0; 4; 32; 32; 32; 32; 32;
   110; 111; 32; 99; 97; 108; 108; 0; 32; 32; 32; 32; 32; 32; 97; 99; 116; 105; 118; 101; 0; 75; 0; 48; 2; 0; 31; 0;
   146; 2; 0; 0; 82; 0; 73; 83; 101; 114; 118; 105; 99; 101; 32; 119; 105; 110; 100; 111; 119; 32; 66; 51; 0; 0; 0; 0;
   0; 0; 1; 65; 0; 0; 0; 0; 0; 8; 81; 1; 0; 0; 32; 32; 110; 111; 32; 115; 101; 114; 118; 105; 99; 101; 0; 32; 32; 32;
   32; 32; 32; 97; 99; 116; 105; 118; 101; 0; 70; 0; 31; 3; 0; 28; 0; 147; 2; 0; 0; 83; 0; 193; 77; 111; 100; 101;
   109; 32; 112; 111; 119; 101; 114; 32; 115; 117; 112; 112; 32; 66; 52; 0; 0; 0; 0; 156; 2; 0; 0; 0; 0; 0; 32; 32;
   32; 32; 32; 32; 32; 32; 32; 79; 102; 102; 0; 32; 32; 32; 32; 32; 32; 32; 32; 32; 32; 79; 110; 0].
Definition archive_page : bytes :=
  [3; 1; 0; 0; 0; 96; 102; 151; 41; 0; 0; 70; 16; 2; 34; 166; 14; 155; 123; 196; 245; 40; 92; 167; 46; 255; 64; 48;
   24; 226; 122; 36; 33; 237; 64; 102; 112; 105; 158; 109; 169; 52; 65; 39; 139; 136; 193; 146; 138; 234; 64; 0; 0; 0;
   0; 0; 0; 0; 0; 125; 150; 129; 64; 138; 23; 126; 63; 128; 0; 0; 32; 0; 0; 0; 208; 205; 181].

(** tests/test_call_to_dispatch.py *)
Definition call_escaped : bytes :=
  [2; 254; 132; 135; 156; 0; 0; 0; 0; 1; 0; 0; 27; 15; 0; 2; 64; 164; 148; 221; 150; 206; 27; 27; 183; 25; 65; 100;
   213; 106; 111; 128; 164; 48; 48; 48; 48; 48; 48; 48; 48; 48; 48; 48; 48; 48; 48; 48; 49; 0; 35; 130; 8; 112; 16;
   99; 67; 120; 0; 0; 3; 89; 7; 115; 32; 103; 6; 81; 0; 1; 0; 0; 31; 6; 0; 0; 0; 158; 43; 98; 45; 0; 0; 0; 0; 0; 0; 0;
   0; 1; 0; 0; 0; 145; 202; 175; 44; 152; 0; 0; 0; 0; 0; 0; 0; 44; 64; 140; 140; 10; 71; 74; 75; 29; 42; 98; 45; 1;
   122; 254; 205; 1; 48; 49; 46; 48; 48; 48; 0; 0; 0; 0; 0; 0; 0; 0; 0; 0; 0; 0; 0; 0; 0; 0; 0; 0; 0; 0; 0; 0; 0; 0;
   0; 0; 0; 125; 67; 43; 13].
Definition call_telegram : bytes :=
  [2; 254; 132; 135; 156; 0; 0; 0; 0; 1; 0; 0; 141; 0; 2; 64; 164; 148; 221; 150; 206; 27; 183; 25; 65; 100; 213; 106;
   111; 128; 164; 48; 48; 48; 48; 48; 48; 48; 48; 48; 48; 48; 48; 48; 48; 48; 49; 0; 35; 130; 8; 112; 16; 99; 67; 120;
   0; 0; 3; 89; 7; 115; 32; 103; 6; 81; 0; 1; 0; 0; 31; 6; 0; 0; 0; 158; 43; 98; 45; 0; 0; 0; 0; 0; 0; 0; 0; 1; 0; 0;
   0; 145; 202; 175; 44; 152; 0; 0; 0; 0; 0; 0; 0; 44; 64; 140; 140; 10; 71; 74; 75; 29; 42; 98; 45; 1; 122; 254; 205;
   1; 48; 49; 46; 48; 48; 48; 0; 0; 0; 0; 0; 0; 0; 0; 0; 0; 0; 0; 0; 0; 0; 0; 0; 0; 0; 0; 0; 0; 0; 0; 0; 0; 0; 125;
   67; 43; 13].

Example test_length_of_data : return_characters call_escaped = Ok call_telegram /\ len call_telegram - 1 = 0x9C.
Proof. vm_compute. auto. Qed.

(** tests/test_security.py *)
Example test_security_cbc : calculate_crc [16; 0; 3; 107; 4; 165; 177; 179; 112; 161; 176; 239; 129; 0; 0; 0; 0; 224; 3; 29; 165; 73; 137; 64; 189; 163; 9; 100; 214; 102; 31; 100; 104] = 18083 /\
  aes_cbc_decrypt [141; 50; 30; 14; 66; 109; 249; 191; 142; 114; 43; 91; 185; 175; 166; 46; 149; 4; 169; 42; 136; 107; 29; 113; 187; 255; 47; 87; 248; 91; 138; 91]
    [51; 51; 51; 51; 51; 51; 51; 51; 51; 51; 51; 51; 51; 51; 51; 51] [51; 51; 51; 51; 51; 51; 51; 51; 51; 51; 51; 51; 51; 51; 51; 51] =
  Ok [107; 4; 165; 177; 179; 112; 161; 176; 239; 129; 0; 0; 0; 0; 224; 3; 29; 165; 73; 137; 64; 189; 163; 9; 100; 214; 102; 31; 100; 104; 70; 163].
Proof. vm_compute. auto. Qed.

(** tests/test_parser.py, and the objects tests/test_schema.py lists for a device of the same configuration *)
Definition all_parameters : bytes :=
  [14; 1; 0; 131; 93; 33; 255; 115; 49; 46; 49; 54; 0; 16; 2; 50; 49; 49; 49; 51; 55; 95; 48; 48; 48; 48; 48; 48; 48;
   48; 49; 0; 12; 229; 153; 30; 16; 14; 102; 166; 202; 66; 0; 0; 0; 0; 2; 205; 204; 140; 63; 179; 12; 65; 63; 53; 222;
   46; 66; 10; 215; 35; 63; 0; 0; 0; 0; 0; 0; 0; 0; 0; 0; 0; 0; 0; 0; 0; 0; 0; 0; 0; 0; 0; 0; 0; 0; 0; 0; 0; 0; 3; 24;
   196; 66; 138; 31; 67; 63; 213; 9; 136; 62; 132; 158; 77; 61; 172; 139; 91; 61; 198; 220; 53; 60; 0; 111; 1; 60; 10;
   215; 35; 60; 0; 0; 0; 0; 0; 0; 0; 0; 0; 0; 0; 0; 0; 0; 0; 0; 88; 0; 14; 0; 72; 0; 52; 0; 152; 2; 88; 0; 0; 0; 3; 0;
   0; 8; 0; 18; 3; 3; 0; 8; 3; 0; 6; 104; 166; 202; 66; 0; 0; 0; 0; 0; 0; 0; 0; 0; 0; 0; 0; 0; 0; 0; 0; 0; 0; 0; 0; 0;
   42; 0; 7; 98; 97; 114; 0; 0; 0; 0; 0; 32; 176; 67; 0; 0; 0; 0; 0; 0; 161; 109; 0; 0; 0; 0; 0; 0; 0; 144; 77; 74;
   47; 109; 51; 0; 51; 0; 1; 1; 0; 0; 0; 0; 0; 65; 0; 53; 224; 255; 127; 255; 119; 238; 18; 0; 0; 0; 0; 0; 0; 0; 0; 0;
   49; 46; 49; 54; 0; 154; 250; 0; 0; 0; 0; 229; 33; 0; 0; 75; 0; 30; 0; 0; 1; 0; 6; 0; 10; 0; 155; 80; 114; 101; 115;
   115; 117; 114; 101; 32; 112; 0; 71; 0; 0; 0; 0; 0; 0; 43; 43; 43; 0; 0; 98; 97; 114; 0; 0; 0; 0; 0; 154; 0; 154;
   58; 0; 0; 0; 0; 205; 204; 76; 63; 0; 0; 140; 66; 78; 121; 135; 100; 158; 2; 90; 0; 0; 0; 10; 0; 0; 0; 0; 2; 75; 0;
   30; 1; 0; 2; 0; 8; 0; 12; 0; 155; 84; 101; 109; 112; 101; 114; 97; 116; 117; 114; 101; 32; 116; 0; 46; 32; 86; 98;
   115; 0; 125; 63; 125; 176; 67; 0; 0; 0; 0; 0; 0; 150; 0; 22; 59; 0; 0; 72; 194; 0; 0; 200; 193; 0; 0; 112; 66; 173;
   84; 97; 100; 162; 2; 92; 0; 0; 0; 12; 0; 0; 0; 0; 65; 75; 0; 30; 2; 0; 21; 0; 10; 0; 14; 0; 137; 73; 110; 116; 101;
   114; 110; 97; 108; 32; 116; 101; 109; 112; 46; 32; 65; 51; 0; 50; 0; 35; 0; 0; 176; 67; 0; 0; 0; 0; 0; 0; 0; 0; 0;
   62; 0; 0; 0; 195; 0; 0; 32; 194; 0; 0; 170; 66; 0; 0; 0; 0; 156; 2; 0; 0; 0; 0; 0; 0; 0; 0; 0; 0; 75; 0; 30; 3; 0;
   22; 0; 12; 0; 16; 0; 137; 66; 97; 116; 116; 101; 114; 121; 32; 118; 111; 108; 116; 97; 103; 101; 32; 65; 52; 0; 97;
   120; 32; 83; 86; 0; 0; 0; 0; 0; 0; 0; 104; 232; 159; 59; 0; 0; 0; 0; 0; 0; 0; 0; 0; 0; 144; 64; 0; 0; 0; 0; 156; 2;
   0; 0; 0; 0; 0; 0; 0; 0; 0; 0; 75; 0; 30; 4; 0; 23; 0; 14; 0; 18; 0; 129; 66; 97; 116; 116; 101; 114; 121; 32; 99;
   97; 112; 97; 99; 105; 116; 121; 32; 65; 53; 0; 0; 0; 0; 37; 0; 0; 0; 0; 0; 0; 0; 200; 0; 200; 58; 0; 0; 0; 0; 0; 0;
   0; 0; 0; 0; 200; 66; 0; 0; 0; 0; 156; 2; 0; 0; 0; 0; 0; 0; 0; 0; 0; 97; 75; 0; 30; 5; 0; 26; 0; 16; 0; 20; 0; 129;
   71; 83; 77; 32; 115; 105; 103; 110; 97; 108; 32; 65; 54; 0; 38; 0; 66; 0; 70; 0; 145; 67; 111; 37; 0; 0; 0; 0; 0;
   0; 0; 200; 0; 200; 58; 0; 0; 0; 0; 0; 0; 0; 0; 0; 0; 200; 66; 0; 0; 0; 0; 156; 2; 0; 0; 0; 0; 0; 0; 0; 0; 0; 66;
   70; 0; 31; 0; 0; 160; 0; 144; 2; 0; 0; 80; 0; 129; 67; 111; 118; 101; 114; 32; 66; 49; 0; 0; 0; 0; 0; 4; 66; 0; 59;
   0; 0; 39; 0; 74; 0; 156; 2; 0; 0; 0; 0; 0; 32; 32; 32; 32; 32; 32; 67; 108; 111; 115; 101; 100; 0; 32; 32; 32; 32;
   32; 32; 79; 112; 101; 110; 101; 100; 0; 75; 0; 48; 1; 0; 30; 0; 145; 2; 0; 0; 81; 0; 81; 67; 97; 108; 108; 32; 119;
   105; 110; 100; 111; 119; 32; 66; 50; 0; 32; 66; 50; 0; 50; 0; 149; 2; 1; 33; 0; 184; 86; 0; 0; 0; 0; 0; 0; 4; 32;
   32; 32; 32; 32; 110; 111; 32; 99; 97; 108; 108; 0; 32; 32; 32; 32; 32; 32; 97; 99; 116; 105; 118; 101; 0; 75; 0;
   48; 2; 0; 31; 0; 146; 2; 0; 0; 82; 0; 73; 83; 101; 114; 118; 105; 99; 101; 32; 119; 105; 110; 100; 111; 119; 32;
   66; 51; 0; 32; 66; 51; 0; 51; 1; 65; 0; 0; 0; 0; 0; 8; 81; 1; 0; 0; 32; 32; 110; 111; 32; 115; 101; 114; 118; 105;
   99; 101; 0; 32; 32; 32; 32; 32; 32; 97; 99; 116; 105; 118; 101; 0; 70; 0; 31; 3; 0; 28; 0; 147; 2; 0; 0; 83; 0;
   193; 77; 111; 100; 101; 109; 32; 112; 111; 119; 101; 114; 32; 115; 117; 112; 112; 32; 66; 52; 0; 0; 0; 0; 156; 2;
   0; 0; 0; 0; 0; 32; 32; 32; 32; 32; 32; 32; 32; 32; 79; 102; 102; 0; 32; 32; 32; 32; 32; 32; 32; 32; 32; 32; 79;
   110; 0; 70; 0; 31; 4; 0; 27; 0; 148; 2; 0; 0; 84; 0; 193; 69; 120; 116; 101; 114; 110; 97; 108; 32; 112; 111; 119;
   101; 114; 32; 66; 53; 0; 32; 156; 125; 34; 125; 156; 2; 0; 0; 0; 0; 0; 32; 32; 32; 32; 80; 111; 119; 101; 114; 32;
   79; 75; 0; 32; 80; 111; 119; 101; 114; 32; 101; 114; 114; 111; 114; 0; 70; 0; 31; 5; 0; 49; 0; 149; 2; 0; 0; 85; 0;
   193; 69; 120; 116; 46; 112; 111; 119; 101; 114; 32; 109; 111; 100; 101; 109; 32; 66; 54; 0; 111; 37; 125; 32; 156;
   2; 0; 0; 0; 0; 0; 32; 32; 32; 32; 80; 111; 119; 101; 114; 32; 79; 75; 0; 32; 80; 111; 119; 101; 114; 32; 101; 114;
   114; 111; 114; 0; 89; 0; 53; 0; 0; 3; 0; 18; 0; 22; 0; 151; 80; 114; 105; 109; 97; 114; 121; 32; 118; 111; 108;
   117; 109; 101; 32; 86; 109; 0; 32; 125; 32; 125; 32; 109; 51; 0; 0; 0; 0; 0; 0; 0; 0; 0; 0; 0; 0; 240; 63; 125; 32;
   125; 32; 156; 2; 0; 0; 0; 0; 14; 0; 10; 0; 0; 0; 0; 0; 0; 0; 0; 0; 0; 0; 0; 0; 0; 0; 0; 0; 0; 0; 0; 0; 11; 0; 0; 0;
   63; 0; 54; 0; 0; 9; 0; 26; 0; 30; 0; 151; 83; 112; 97; 114; 101; 32; 112; 114; 105; 109; 46; 32; 118; 111; 108; 46;
   32; 86; 115; 0; 32; 32; 32; 109; 51; 0; 0; 0; 0; 0; 0; 0; 0; 0; 0; 0; 0; 240; 63; 0; 22; 0; 18; 0; 0; 0; 0; 11; 0;
   0; 0; 52; 0; 33; 0; 0; 7; 0; 34; 0; 38; 0; 151; 66; 97; 115; 101; 32; 118; 111; 108; 117; 109; 101; 32; 86; 98; 0;
   125; 32; 149; 125; 34; 125; 33; 33; 109; 51; 0; 0; 0; 0; 0; 0; 0; 0; 30; 0; 26; 0; 0; 0; 2; 51; 0; 46; 0; 0; 8; 0;
   42; 0; 46; 0; 151; 83; 112; 97; 114; 101; 32; 98; 97; 115; 101; 32; 118; 111; 108; 46; 32; 86; 98; 115; 0; 48; 125;
   34; 109; 51; 0; 0; 0; 0; 0; 0; 0; 38; 0; 34; 0; 0; 0; 2; 54; 0; 34; 0; 0; 4; 0; 50; 0; 54; 0; 139; 70; 108; 111;
   119; 32; 81; 0; 32; 32; 66; 51; 125; 32; 51; 125; 33; 65; 125; 32; 125; 32; 125; 32; 109; 51; 47; 104; 0; 0; 0; 0;
   156; 2; 0; 0; 0; 0; 46; 0; 0; 0; 1; 50; 0; 35; 0; 0; 10; 0; 54; 0; 58; 0; 131; 66; 97; 115; 101; 32; 102; 108; 111;
   119; 32; 81; 98; 0; 125; 63; 125; 35; 125; 32; 125; 60; 125; 32; 109; 51; 47; 104; 0; 0; 0; 0; 0; 0; 50; 0; 0; 0;
   1; 70; 0; 70; 0; 0; 52; 0; 150; 2; 0; 0; 86; 0; 193; 83; 101; 116; 112; 111; 105; 110; 116; 32; 81; 32; 109; 97;
   120; 32; 83; 49; 0; 125; 32; 125; 32; 32; 0; 60; 28; 70; 34; 0; 0; 32; 32; 32; 32; 73; 110; 97; 99; 116; 105; 118;
   101; 0; 32; 32; 32; 32; 32; 32; 65; 99; 116; 105; 118; 101; 0; 55; 0; 36; 0; 0; 5; 0; 58; 0; 62; 0; 155; 67; 111;
   110; 118; 101; 114; 115; 46; 102; 97; 99; 116; 111; 114; 32; 67; 0; 32; 65; 53; 0; 0; 0; 0; 1; 15; 0; 0; 72; 67; 0;
   0; 112; 65; 0; 0; 128; 63; 54; 0; 0; 0; 4; 41; 0; 47; 0; 0; 6; 0; 62; 0; 66; 0; 147; 67; 111; 109; 112; 46; 32;
   114; 97; 116; 105; 111; 32; 90; 47; 90; 98; 32; 75; 0; 0; 129; 71; 83; 0; 58; 0; 0; 0; 4; 41; 0; 74; 0; 0; 38; 0;
   66; 0; 70; 0; 145; 67; 111; 109; 112; 114; 101; 115; 115; 105; 98; 105; 108; 105; 116; 121; 32; 90; 0; 0; 0; 0; 0;
   0; 0; 0; 0; 0; 0; 4; 41; 0; 75; 0; 0; 37; 0; 70; 0; 74; 0; 145; 66; 97; 115; 101; 32; 99; 111; 109; 112; 114; 101;
   115; 115; 46; 32; 90; 98; 0; 118; 101; 114; 32; 66; 0; 0; 0; 0; 0; 4; 66; 0; 59; 0; 0; 39; 0; 74; 0; 78; 0; 199;
   83; 116; 97; 116; 117; 115; 32; 83; 116; 49; 0; 67; 108; 111; 115; 101; 100; 0; 32; 32; 32; 32; 32; 62; 0; 42; 0;
   255; 111; 234; 236; 255; 11; 255; 223; 0; 0; 0; 0; 0; 0; 0; 0; 0; 0; 0; 0; 0; 0; 0; 0; 0; 0; 0; 77; 1; 141; 0; 18;
   0; 0; 0; 0; 0; 0; 0; 5; 65; 84; 83; 48; 61; 49; 0; 0; 0; 0; 0; 0; 0; 0; 0; 0; 0; 0; 0; 0; 0; 0; 0; 0; 0; 0; 0; 0;
   0; 0; 0; 0; 65; 84; 68; 42; 57; 57; 42; 42; 42; 49; 35; 0; 0; 0; 0; 0; 0; 0; 0; 0; 0; 0; 0; 0; 0; 0; 0; 0; 0; 0; 0;
   0; 65; 84; 72; 0; 0; 0; 0; 0; 65; 84; 43; 67; 71; 68; 67; 79; 78; 84; 61; 49; 44; 34; 73; 80; 34; 44; 34; 101; 108;
   118; 97; 99; 111; 46; 116; 101; 108; 101; 50; 46; 109; 50; 109; 34; 0; 0; 0; 0; 0; 0; 0; 0; 0; 0; 0; 0; 0; 0; 0; 0;
   0; 0; 0; 0; 0; 0; 0; 0; 0; 0; 0; 0; 0; 0; 0; 0; 0; 0; 0; 0; 0; 0; 0; 0; 0; 0; 0; 0; 0; 0; 0; 0; 0; 0; 0; 0; 0; 0;
   0; 0; 0; 0; 0; 0; 0; 0; 0; 0; 0; 0; 0; 0; 0; 0; 0; 0; 0; 0; 0; 0; 0; 0; 0; 0; 0; 0; 0; 0; 0; 0; 0; 0; 0; 0; 0; 0;
   0; 0; 0; 0; 0; 0; 0; 0; 0; 0; 0; 0; 0; 0; 0; 0; 0; 0; 0; 0; 0; 0; 0; 0; 0; 0; 0; 0; 0; 0; 0; 0; 0; 0; 0; 0; 0; 0;
   0; 0; 0; 0; 0; 0; 0; 0; 0; 121; 21; 84; 103; 52; 129; 71; 153; 66; 102; 17; 69; 0; 121; 21; 84; 103; 52; 129; 71;
   153; 66; 102; 17; 69; 0; 121; 21; 84; 103; 52; 129; 71; 0; 0; 0; 0; 0; 0; 43; 43; 43; 0; 0; 0; 0; 0; 121; 21; 84;
   103; 52; 129; 71; 153; 66; 0; 0; 0; 0; 0; 0; 0; 0; 0; 0; 0; 0; 0; 0; 0; 0; 0].

Definition expected_objects : list value :=
  [VObj "SystemParameters" [("device_type", VInt (131));
      ("serial_number", VInt (1946100061));
      ("firmware_version", VStr [49; 46; 49; 54]);
      ("service_version", VInt (16));
      ("certification_variant", VInt (2));
      ("station_id", VStr [50; 49; 49; 49; 51; 55; 95; 48; 48; 48; 48; 48; 48; 48; 48; 49]);
      ("password_for_full_access_active", VBool false);
      ("password_for_reading_is_on", VBool false);
      ("metrological_switch", VBool true);
      ("user_switch", VBool true);
      ("switch_function", VInt (0));
      ("parameter_crc", VInt (46378));
      ("measuring_period", VInt (30));
      ("archive_period", VInt (3600));
      ("base_pressure", VFloat (Fin false 6640435 (-16)));
      ("base_temperature", VFloat (Fin false 0 0));
      ("compressibility_formula", VInt (2));
      ("gas_composition", VObj "GasComposition" [("co2", VFloat (Fin false 9227469 (-23)));
      ("n2", VFloat (Fin false 12651699 (-24)));
      ("combustion_heat", VFloat (Fin false 11460149 (-18)));
      ("relative_density", VFloat (Fin false 5368709 (-23)));
      ("h2", VFloat (Fin false 0 0));
      ("h2s", VFloat (Fin false 0 0));
      ("he", VFloat (Fin false 0 0));
      ("h2o", VFloat (Fin false 0 0));
      ("o2", VFloat (Fin false 0 0));
      ("ar", VFloat (Fin false 0 0));
      ("co", VFloat (Fin false 0 0));
      ("c1h4", VFloat (Fin false 12851203 (-17)));
      ("c2h6", VFloat (Fin false 6393797 (-23)));
      ("c3h8", VFloat (Fin false 8915413 (-25)));
      ("ic4h10", VFloat (Fin false 3368865 (-26)));
      ("nc4h10", VFloat (Fin false 3597035 (-26)));
      ("ic5h12", VFloat (Fin false 5959267 (-29)));
      ("nc5h12", VFloat (Fin false 33135 (-22)));
      ("c6h14", VFloat (Fin false 5368709 (-29)));
      ("c7h16", VFloat (Fin false 0 0));
      ("c8h18", VFloat (Fin false 0 0));
      ("c9h20", VFloat (Fin false 0 0));
      ("c10h22", VFloat (Fin false 0 0))]);
      ("data_archive_record_length", VInt (88));
      ("binary_archive_record_length", VInt (14));
      ("daily_archive_record_length", VInt (72));
      ("monthly_archive_record_length", VInt (52));
      ("instantaneous_values_error_bit_order", VInt (664));
      ("binary_archive_record_error_bit_order", VInt (88));
      ("data_archive_record_error_bit_order", VInt (0));
      ("optical_port_speed", VInt (8));
      ("optical_port_protocol", VInt (0));
      ("optical_port_bit_control", VInt (16));
      ("communication_port_0_speed", VInt (8));
      ("communication_port_0_protocol", VInt (0));
      ("communication_port_0_bit_control", VInt (18));
      ("communication_port_1_speed", VInt (3));
      ("communication_port_1_protocol", VInt (3));
      ("communication_port_1_bit_control", VInt (0));
      ("communication_port_2_speed", VInt (8));
      ("communication_port_2_protocol", VInt (3));
      ("communication_port_2_bit_control", VInt (0));
      ("gas_day_hour", VInt (6));
      ("fixed_barometric_pressure", VFloat (Fin false 1660109 (-14)));
      ("altitude", VFloat (Fin false 0 0));
      ("status_archive_record_length", VInt (42));
      ("pressure_unit_type", VInt (7));
      ("pressure_unit_text", VStr [98; 97; 114]);
      ("temperature_unit_type", VInt (32));
      ("temperature_unit_text", VStr [176; 67]);
      ("altitude_unit_type", VInt (161));
      ("altitude_unit_text", VStr [109]);
      ("gross_calorific_value_type", VInt (144));
      ("gross_calorific_value_text", VStr [77; 74; 47; 109; 51; 32; 51]);
      ("dst_region", VInt (1));
      ("gmt_hour_shift", VInt (1));
      ("billing_archive_record_length", VInt (0));
      ("conditions_for_combustion_heat", VInt (0));
      ("device_variant", VInt (0));
      ("bit_control", VInt (65));
      ("places_for_corrected_volume_counters", VInt (0));
      ("device_features_bits", VInt (53));
      ("device_features", VStr [101; 48; 102; 102; 55; 102; 102; 102; 55; 55; 101; 101; 49; 50; 48; 48; 48; 48; 48; 48; 48; 48; 48; 48; 48; 48; 48; 48; 48; 48; 48; 48]);
      ("version_metrological_part", VStr [49; 46; 49; 54]);
      ("metrological_crc", VInt (64154));
      ("metrological_crc_32", VInt (0));
      ("application_crc_32", VInt (8677))];
   VObj "AnalogQuantity" [("number", VInt (0));
      ("id", VInt (1));
      ("address_in_actual_values", VInt (6));
      ("address_in_data_archive_record", VInt (10));
      ("bit_control", VInt (155));
      ("in_data_archive", VBool true);
      ("in_daily_archive", VBool true);
      ("in_monthly_archive", VBool false);
      ("is_metrological_quantity", VBool true);
      ("in_fast_archive_1", VBool false);
      ("in_fast_archvie_2", VBool false);
      ("name", VStr [80; 114; 101; 115; 115; 117; 114; 101; 32; 112]);
      ("unit", VStr [98; 97; 114]);
      ("digit", VFloat (Fin false 2709134951525169 (-61)));
      ("offset", VFloat (Fin false 0 0));
      ("lower_limit_measuring_range", VFloat (Fin false 3602879701896397 (-52)));
      ("upper_limit_measuring_range", VFloat (Fin false 35 (1)));
      ("serial_number_transducer", VInt (1686600014));
      ("error_bit_order_in_actual_values", VInt (670));
      ("error_bit_order_in_binary_archive", VInt (90));
      ("error_bit_order_in_data_archive", VInt (0));
      ("address_in_daily_archive_record", VInt (10));
      ("address_in_monthly_archive_record", VInt (0));
      ("samples_in_fast_archive", VInt (0));
      ("decimals", VInt (0))];
   VObj "AnalogQuantity" [("number", VInt (1));
      ("id", VInt (2));
      ("address_in_actual_values", VInt (8));
      ("address_in_data_archive_record", VInt (12));
      ("bit_control", VInt (155));
      ("in_data_archive", VBool true);
      ("in_daily_archive", VBool true);
      ("in_monthly_archive", VBool false);
      ("is_metrological_quantity", VBool true);
      ("in_fast_archive_1", VBool false);
      ("in_fast_archvie_2", VBool false);
      ("name", VStr [84; 101; 109; 112; 101; 114; 97; 116; 117; 114; 101; 32; 116]);
      ("unit", VStr [176; 67]);
      ("digit", VFloat (Fin false 659730507973653 (-58)));
      ("offset", VFloat (Fin true 25 (1)));
      ("lower_limit_measuring_range", VFloat (Fin true 25 (0)));
      ("upper_limit_measuring_range", VFloat (Fin false 15 (2)));
      ("serial_number_transducer", VInt (1684100269));
      ("error_bit_order_in_actual_values", VInt (674));
      ("error_bit_order_in_binary_archive", VInt (92));
      ("error_bit_order_in_data_archive", VInt (0));
      ("address_in_daily_archive_record", VInt (12));
      ("address_in_monthly_archive_record", VInt (0));
      ("samples_in_fast_archive", VInt (0));
      ("decimals", VInt (0))];
   VObj "AnalogQuantity" [("number", VInt (2));
      ("id", VInt (21));
      ("address_in_actual_values", VInt (10));
      ("address_in_data_archive_record", VInt (14));
      ("bit_control", VInt (137));
      ("in_data_archive", VBool true);
      ("in_daily_archive", VBool false);
      ("in_monthly_archive", VBool false);
      ("is_metrological_quantity", VBool false);
      ("in_fast_archive_1", VBool false);
      ("in_fast_archvie_2", VBool false);
      ("name", VStr [73; 110; 116; 101; 114; 110; 97; 108; 32; 116; 101; 109; 112; 46; 32; 65; 51]);
      ("unit", VStr [176; 67]);
      ("digit", VFloat (Fin false 1 (-3)));
      ("offset", VFloat (Fin true 1 (7)));
      ("lower_limit_measuring_range", VFloat (Fin true 5 (3)));
      ("upper_limit_measuring_range", VFloat (Fin false 85 (0)));
      ("serial_number_transducer", VInt (0));
      ("error_bit_order_in_actual_values", VInt (668));
      ("error_bit_order_in_binary_archive", VInt (0));
      ("error_bit_order_in_data_archive", VInt (0));
      ("address_in_daily_archive_record", VInt (0));
      ("address_in_monthly_archive_record", VInt (0));
      ("samples_in_fast_archive", VInt (0));
      ("decimals", VInt (0))];
   VObj "AnalogQuantity" [("number", VInt (3));
      ("id", VInt (22));
      ("address_in_actual_values", VInt (12));
      ("address_in_data_archive_record", VInt (16));
      ("bit_control", VInt (137));
      ("in_data_archive", VBool true);
      ("in_daily_archive", VBool false);
      ("in_monthly_archive", VBool false);
      ("is_metrological_quantity", VBool false);
      ("in_fast_archive_1", VBool false);
      ("in_fast_archvie_2", VBool false);
      ("name", VStr [66; 97; 116; 116; 101; 114; 121; 32; 118; 111; 108; 116; 97; 103; 101; 32; 65; 52]);
      ("unit", VStr [86]);
      ("digit", VFloat (Fin false 5626256942481413 (-60)));
      ("offset", VFloat (Fin false 0 0));
      ("lower_limit_measuring_range", VFloat (Fin false 0 0));
      ("upper_limit_measuring_range", VFloat (Fin false 9 (-1)));
      ("serial_number_transducer", VInt (0));
      ("error_bit_order_in_actual_values", VInt (668));
      ("error_bit_order_in_binary_archive", VInt (0));
      ("error_bit_order_in_data_archive", VInt (0));
      ("address_in_daily_archive_record", VInt (0));
      ("address_in_monthly_archive_record", VInt (0));
      ("samples_in_fast_archive", VInt (0));
      ("decimals", VInt (0))];
   VObj "AnalogQuantity" [("number", VInt (4));
      ("id", VInt (23));
      ("address_in_actual_values", VInt (14));
      ("address_in_data_archive_record", VInt (18));
      ("bit_control", VInt (129));
      ("in_data_archive", VBool true);
      ("in_daily_archive", VBool false);
      ("in_monthly_archive", VBool false);
      ("is_metrological_quantity", VBool false);
      ("in_fast_archive_1", VBool false);
      ("in_fast_archvie_2", VBool false);
      ("name", VStr [66; 97; 116; 116; 101; 114; 121; 32; 99; 97; 112; 97; 99; 105; 116; 121; 32; 65; 53]);
      ("unit", VStr [37]);
      ("digit", VFloat (Fin false 7036971695518351 (-62)));
      ("offset", VFloat (Fin false 0 0));
      ("lower_limit_measuring_range", VFloat (Fin false 0 0));
      ("upper_limit_measuring_range", VFloat (Fin false 25 (2)));
      ("serial_number_transducer", VInt (0));
      ("error_bit_order_in_actual_values", VInt (668));
      ("error_bit_order_in_binary_archive", VInt (0));
      ("error_bit_order_in_data_archive", VInt (0));
      ("address_in_daily_archive_record", VInt (0));
      ("address_in_monthly_archive_record", VInt (0));
      ("samples_in_fast_archive", VInt (0));
      ("decimals", VInt (0))];
   VObj "AnalogQuantity" [("number", VInt (5));
      ("id", VInt (26));
      ("address_in_actual_values", VInt (16));
      ("address_in_data_archive_record", VInt (20));
      ("bit_control", VInt (129));
      ("in_data_archive", VBool true);
      ("in_daily_archive", VBool false);
      ("in_monthly_archive", VBool false);
      ("is_metrological_quantity", VBool false);
      ("in_fast_archive_1", VBool false);
      ("in_fast_archvie_2", VBool false);
      ("name", VStr [71; 83; 77; 32; 115; 105; 103; 110; 97; 108; 32; 65; 54]);
      ("unit", VStr [37]);
      ("digit", VFloat (Fin false 7036971695518351 (-62)));
      ("offset", VFloat (Fin false 0 0));
      ("lower_limit_measuring_range", VFloat (Fin false 0 0));
      ("upper_limit_measuring_range", VFloat (Fin false 25 (2)));
      ("serial_number_transducer", VInt (0));
      ("error_bit_order_in_actual_values", VInt (668));
      ("error_bit_order_in_binary_archive", VInt (0));
      ("error_bit_order_in_data_archive", VInt (0));
      ("address_in_daily_archive_record", VInt (0));
      ("address_in_monthly_archive_record", VInt (0));
      ("samples_in_fast_archive", VInt (0));
      ("decimals", VInt (0))];
   VObj "Binary" [("number", VInt (0));
      ("id", VInt (160));
      ("bit_order_in_actual_values", VInt (656));
      ("bit_order_in_data_archive_record", VInt (0));
      ("bit_order_in_binary_archive_record", VInt (80));
      ("bit_control", VInt (129));
      ("in_binary_archive", VBool true);
      ("in_data_archive", VBool false);
      ("active_indicator", VBool false);
      ("name", VStr [67; 111; 118; 101; 114; 32; 66; 49]);
      ("error_bit_order_in_actual_values", VInt (668));
      ("error_bit_order_in_binary_archive_record", VInt (0));
      ("error_bit_order_in_data_archive_record", VInt (0));
      ("action_during_change", VInt (0));
      ("text_log_0", VStr [67; 108; 111; 115; 101; 100]);
      ("text_log_1", VStr [79; 112; 101; 110; 101; 100])];
   VObj "TimeWindow" [("number", VInt (1));
      ("id", VInt (30));
      ("bit_order_in_actual_values", VInt (657));
      ("bit_order_in_data_archive_record", VInt (0));
      ("bit_order_in_binary_archive_record", VInt (81));
      ("bit_control", VInt (81));
      ("in_binary_archive", VBool true);
      ("in_data_archive", VBool false);
      ("name", VStr [67; 97; 108; 108; 32; 119; 105; 110; 100; 111; 119; 32; 66; 50]);
      ("rows_in_window", VInt (1));
      ("rows", VList [VStr [50; 49; 48; 48; 98; 56; 53; 54; 48; 48; 48; 48; 48; 48; 48; 48; 48; 48; 48; 48]]);
      ("action_during_change", VInt (4));
      ("text_log_0", VStr [110; 111; 32; 99; 97; 108; 108]);
      ("text_log_1", VStr [97; 99; 116; 105; 118; 101])];
   VObj "TimeWindow" [("number", VInt (2));
      ("id", VInt (31));
      ("bit_order_in_actual_values", VInt (658));
      ("bit_order_in_data_archive_record", VInt (0));
      ("bit_order_in_binary_archive_record", VInt (82));
      ("bit_control", VInt (73));
      ("in_binary_archive", VBool true);
      ("in_data_archive", VBool false);
      ("name", VStr [83; 101; 114; 118; 105; 99; 101; 32; 119; 105; 110; 100; 111; 119; 32; 66; 51]);
      ("rows_in_window", VInt (1));
      ("rows", VList [VStr [52; 49; 48; 48; 48; 48; 48; 48; 48; 48; 48; 48; 48; 56; 53; 49; 48; 49; 48; 48]]);
      ("action_during_change", VInt (0));
      ("text_log_0", VStr [110; 111; 32; 115; 101; 114; 118; 105; 99; 101]);
      ("text_log_1", VStr [97; 99; 116; 105; 118; 101])];
   VObj "Binary" [("number", VInt (3));
      ("id", VInt (28));
      ("bit_order_in_actual_values", VInt (659));
      ("bit_order_in_data_archive_record", VInt (0));
      ("bit_order_in_binary_archive_record", VInt (83));
      ("bit_control", VInt (193));
      ("in_binary_archive", VBool true);
      ("in_data_archive", VBool false);
      ("active_indicator", VBool true);
      ("name", VStr [77; 111; 100; 101; 109; 32; 112; 111; 119; 101; 114; 32; 115; 117; 112; 112; 32; 66; 52]);
      ("error_bit_order_in_actual_values", VInt (668));
      ("error_bit_order_in_binary_archive_record", VInt (0));
      ("error_bit_order_in_data_archive_record", VInt (0));
      ("action_during_change", VInt (0));
      ("text_log_0", VStr [79; 102; 102]);
      ("text_log_1", VStr [79; 110])];
   VObj "Binary" [("number", VInt (4));
      ("id", VInt (27));
      ("bit_order_in_actual_values", VInt (660));
      ("bit_order_in_data_archive_record", VInt (0));
      ("bit_order_in_binary_archive_record", VInt (84));
      ("bit_control", VInt (193));
      ("in_binary_archive", VBool true);
      ("in_data_archive", VBool false);
      ("active_indicator", VBool true);
      ("name", VStr [69; 120; 116; 101; 114; 110; 97; 108; 32; 112; 111; 119; 101; 114; 32; 66; 53]);
      ("error_bit_order_in_actual_values", VInt (668));
      ("error_bit_order_in_binary_archive_record", VInt (0));
      ("error_bit_order_in_data_archive_record", VInt (0));
      ("action_during_change", VInt (0));
      ("text_log_0", VStr [80; 111; 119; 101; 114; 32; 79; 75]);
      ("text_log_1", VStr [80; 111; 119; 101; 114; 32; 101; 114; 114; 111; 114])];
   VObj "Binary" [("number", VInt (5));
      ("id", VInt (49));
      ("bit_order_in_actual_values", VInt (661));
      ("bit_order_in_data_archive_record", VInt (0));
      ("bit_order_in_binary_archive_record", VInt (85));
      ("bit_control", VInt (193));
      ("in_binary_archive", VBool true);
      ("in_data_archive", VBool false);
      ("active_indicator", VBool true);
      ("name", VStr [69; 120; 116; 46; 112; 111; 119; 101; 114; 32; 109; 111; 100; 101; 109; 32; 66; 54]);
      ("error_bit_order_in_actual_values", VInt (668));
      ("error_bit_order_in_binary_archive_record", VInt (0));
      ("error_bit_order_in_data_archive_record", VInt (0));
      ("action_during_change", VInt (0));
      ("text_log_0", VStr [80; 111; 119; 101; 114; 32; 79; 75]);
      ("text_log_1", VStr [80; 111; 119; 101; 114; 32; 101; 114; 114; 111; 114])];
   VObj "DoubleCounter" [("number", VInt (0));
      ("id", VInt (3));
      ("address_in_actual_values", VInt (18));
      ("address_in_data_archive_record", VInt (22));
      ("bit_control", VInt (151));
      ("in_data_archive", VBool true);
      ("in_daily_archive", VBool true);
      ("in_monthly_archive", VBool true);
      ("in_factory_archive", VBool false);
      ("is_metrological_quantity", VBool true);
      ("accept_counting_direction", VBool false);
      ("name", VStr [80; 114; 105; 109; 97; 114; 121; 32; 118; 111; 108; 117; 109; 101; 32; 86; 109]);
      ("unit", VStr [109; 51]);
      ("digit", VFloat (Fin false 1 (0)));
      ("serial_number_of_gas_meter", VInt (1442135460));
      ("error_bit_order_in_actual_values", VInt (668));
      ("error_bit_order_in_binary_archive", VInt (0));
      ("error_bit_order_in_data_archive", VInt (0));
      ("address_in_daily_archive_record", VInt (14));
      ("address_in_monthly_archive_record", VInt (10));
      ("address_in_billing_archive_record", VInt (0));
      ("serial_number_of_gas_meter_text", VStr []);
      ("decimals", VInt (0))];
   VObj "DoubleErrorCounter" [("number", VInt (0));
      ("id", VInt (9));
      ("address_in_actual_values", VInt (26));
      ("address_in_data_archive_record", VInt (30));
      ("bit_control", VInt (151));
      ("in_data_archive", VBool true);
      ("in_daily_archive", VBool true);
      ("in_monthly_archive", VBool true);
      ("in_factory_archive", VBool false);
      ("is_metrological_quantity", VBool true);
      ("name", VStr [83; 112; 97; 114; 101; 32; 112; 114; 105; 109; 46; 32; 118; 111; 108; 46; 32; 86; 115]);
      ("unit", VStr [109; 51]);
      ("digit", VFloat (Fin false 1 (0)));
      ("number_of_primary_counter", VInt (0));
      ("address_in_daily_archive_record", VInt (22));
      ("address_in_monthly_archive_record", VInt (18));
      ("address_in_billing_archive_record", VInt (0));
      ("decimals", VInt (0))];
   VObj "StandardCounter" [("number", VInt (0));
      ("id", VInt (7));
      ("address_in_actual_values", VInt (34));
      ("address_in_data_archive_record", VInt (38));
      ("bit_control", VInt (151));
      ("in_data_archive", VBool true);
      ("in_daily_archive", VBool true);
      ("in_monthly_archive", VBool true);
      ("in_factory_archive", VBool false);
      ("is_metrological_quantity", VBool true);
      ("name", VStr [66; 97; 115; 101; 32; 118; 111; 108; 117; 109; 101; 32; 86; 98]);
      ("unit", VStr [109; 51]);
      ("number_of_primary_counter", VInt (0));
      ("number_of_conversion", VInt (0));
      ("address_in_daily_archive_record", VInt (30));
      ("address_in_monthly_archive_record", VInt (26));
      ("address_in_billing_archive_record", VInt (0));
      ("decimals", VInt (2))];
   VObj "ErrorStandardCounter" [("number", VInt (0));
      ("id", VInt (8));
      ("address_in_actual_values", VInt (42));
      ("address_in_data_archive_record", VInt (46));
      ("bit_control", VInt (151));
      ("in_data_archive", VBool true);
      ("in_daily_archive", VBool true);
      ("in_monthly_archive", VBool true);
      ("in_factory_archive", VBool false);
      ("is_metrological_quantity", VBool true);
      ("name", VStr [83; 112; 97; 114; 101; 32; 98; 97; 115; 101; 32; 118; 111; 108; 46; 32; 86; 98; 115]);
      ("unit", VStr [109; 51]);
      ("number_of_standard_counter", VInt (0));
      ("address_in_daily_archive_record", VInt (38));
      ("address_in_monthly_archive_record", VInt (34));
      ("address_in_billing_archive_record", VInt (0));
      ("decimals", VInt (2))];
   VObj "FlowRate" [("number", VInt (0));
      ("id", VInt (4));
      ("address_in_actual_values", VInt (50));
      ("address_in_data_archive_record", VInt (54));
      ("bit_control", VInt (139));
      ("in_data_archive", VBool true);
      ("in_daily_archive", VBool true);
      ("in_monthly_archive", VBool false);
      ("is_metrological_quantity", VBool false);
      ("name", VStr [70; 108; 111; 119; 32; 81]);
      ("unit", VStr [109; 51; 47; 104]);
      ("error_bit_order_in_actual_values", VInt (668));
      ("error_bit_order_in_binary_archive", VInt (0));
      ("error_bit_order_in_data_archive", VInt (0));
      ("address_in_daily_archive_record", VInt (46));
      ("address_in_monthly_archive_record", VInt (0));
      ("decimals", VInt (1))];
   VObj "StandardFlowRate" [("number", VInt (0));
      ("id", VInt (10));
      ("address_in_actual_values", VInt (54));
      ("address_in_data_archive_record", VInt (58));
      ("bit_control", VInt (131));
      ("in_data_archive", VBool true);
      ("in_daily_archive", VBool true);
      ("in_monthly_archive", VBool false);
      ("is_metrological_quantity", VBool false);
      ("name", VStr [66; 97; 115; 101; 32; 102; 108; 111; 119; 32; 81; 98]);
      ("unit", VStr [109; 51; 47; 104]);
      ("number_of_primary_flow_rate", VInt (0));
      ("number_of_conversion", VInt (0));
      ("address_in_daily_archive_record", VInt (50));
      ("address_in_monthly_archive_record", VInt (0));
      ("decimals", VInt (1))];
   VObj "SetPoint" [("number", VInt (0));
      ("id", VInt (52));
      ("bit_order_in_actual_values", VInt (662));
      ("bit_order_in_data_archive_record", VInt (0));
      ("bit_order_in_binary_archive_record", VInt (86));
      ("bit_control", VInt (193));
      ("in_binary_archive", VBool true);
      ("in_data_archive", VBool false);
      ("active_indicator", VBool true);
      ("name", VStr [83; 101; 116; 112; 111; 105; 110; 116; 32; 81; 32; 109; 97; 120; 32; 83; 49]);
      ("value_of_limit", VFloat (Fin false 9999 (0)));
      ("type_of_primary_quantity", VInt (34));
      ("number_of_primary_quantity", VInt (0));
      ("action_during_change", VInt (0));
      ("text_log_0", VStr [73; 110; 97; 99; 116; 105; 118; 101]);
      ("text_log_1", VStr [65; 99; 116; 105; 118; 101])];
   VObj "ConversionCoefficient" [("number", VInt (0));
      ("id", VInt (5));
      ("address_in_actual_values", VInt (58));
      ("address_in_data_archive_record", VInt (62));
      ("bit_control", VInt (155));
      ("in_data_archive", VBool true);
      ("in_daily_archive", VBool true);
      ("in_monthly_archive", VBool false);
      ("is_metrological_quantity", VBool true);
      ("name", VStr [67; 111; 110; 118; 101; 114; 115; 46; 102; 97; 99; 116; 111; 114; 32; 67]);
      ("number_of_analog_pressure", VInt (0));
      ("number_of_analog_temperature", VInt (1));
      ("compressibility_calculation_method", VInt (15));
      ("default_value_pressure", VFloat (Fin false 25 (3)));
      ("default_value_temperature", VFloat (Fin false 15 (0)));
      ("alternate_value_of_compressibility", VFloat (Fin false 1 (0)));
      ("address_in_daily_archive_record", VInt (54));
      ("address_in_monthly_archive_record", VInt (0));
      ("decimals", VInt (4))];
   VObj "Compressibility" [("number", VInt (0));
      ("id", VInt (6));
      ("address_in_actual_values", VInt (62));
      ("address_in_data_archive_record", VInt (66));
      ("bit_control", VInt (147));
      ("in_data_archive", VBool true);
      ("in_daily_archive", VBool true);
      ("in_monthly_archive", VBool false);
      ("is_metrological_quantity", VBool true);
      ("name", VStr [67; 111; 109; 112; 46; 32; 114; 97; 116; 105; 111; 32; 90; 47; 90; 98; 32; 75]);
      ("number_of_conversion_coefficient", VInt (0));
      ("address_in_daily_archive_record", VInt (58));
      ("address_in_monthly_archive_record", VInt (0));
      ("decimals", VInt (4))];
   VObj "CompressibilityZ" [("number", VInt (0));
      ("id", VInt (38));
      ("address_in_actual_values", VInt (66));
      ("address_in_data_archive_record", VInt (70));
      ("bit_control", VInt (145));
      ("in_data_archive", VBool true);
      ("in_daily_archive", VBool false);
      ("in_monthly_archive", VBool false);
      ("is_metrological_quantity", VBool true);
      ("name", VStr [67; 111; 109; 112; 114; 101; 115; 115; 105; 98; 105; 108; 105; 116; 121; 32; 90]);
      ("number_of_conversion_coefficient", VInt (0));
      ("address_in_daily_archive_record", VInt (0));
      ("address_in_monthly_archive_record", VInt (0));
      ("decimals", VInt (4))];
   VObj "CompressibilityZBase" [("number", VInt (0));
      ("id", VInt (37));
      ("address_in_actual_values", VInt (70));
      ("address_in_data_archive_record", VInt (74));
      ("bit_control", VInt (145));
      ("in_data_archive", VBool true);
      ("in_daily_archive", VBool false);
      ("in_monthly_archive", VBool false);
      ("is_metrological_quantity", VBool true);
      ("name", VStr [66; 97; 115; 101; 32; 99; 111; 109; 112; 114; 101; 115; 115; 46; 32; 90; 98]);
      ("number_of_conversion_coefficient", VInt (0));
      ("address_in_daily_archive_record", VInt (0));
      ("address_in_monthly_archive_record", VInt (0));
      ("decimals", VInt (4))];
   VObj "Diagnostics" [("number", VInt (0));
      ("id", VInt (39));
      ("address_in_actual_values", VInt (74));
      ("address_in_data_archive_record", VInt (78));
      ("bit_control", VInt (199));
      ("in_data_archive", VBool true);
      ("in_daily_archive", VBool true);
      ("in_monthly_archive", VBool true);
      ("in_factory_archive", VBool false);
      ("name", VStr [83; 116; 97; 116; 117; 115; 32; 83; 116; 49]);
      ("address_in_daily_archive_record", VInt (62));
      ("address_in_monthly_archive_record", VInt (42));
      ("mask_1_of_status_archive", VInt (3974787071));
      ("mask_2_of_status_archive", VInt (3758033919));
      ("mask_1_of_alarm", VInt (0));
      ("mask_2_of_alarm", VInt (0));
      ("mask_1_of_calling_to_dispatching", VInt (0));
      ("mask_2_of_calling_to_dispatching", VInt (0));
      ("action_during_change", VInt (0))];
   VObj "Modem" [("number", VInt (0));
      ("bit_control_0", VInt (18));
      ("title", VStr []);
      ("modem_type", VInt (5));
      ("initialization", VStr [65; 84; 83; 48; 61; 49]);
      ("call_to_dispatching", VStr [65; 84; 68; 42; 57; 57; 42; 42; 42; 49; 35]);
      ("modem_hang_up", VStr [65; 84; 72]);
      ("special_initialization", VStr [65; 84; 43; 67; 71; 68; 67; 79; 78; 84; 61; 49; 44; 34; 73; 80; 34; 44; 34; 101; 108; 118; 97; 99; 111; 46; 116; 101; 108; 101; 50; 46; 109; 50; 109; 34]);
      ("ip_address_for_registration_and_diagnostics", VStr [49; 50; 55; 46; 48; 46; 48; 46; 49]);
      ("ip_address_for_calling_to_dispatching", VStr [49; 50; 55; 46; 48; 46; 48; 46; 49]);
      ("registration_send_period", VInt (0));
      ("authentication_mode", VInt (0));
      ("port_for_registration", VInt (0));
      ("port_for_calling_to_dispatching", VInt (0));
      ("sms_call", VStr []);
      ("gprs_user_name", VStr []);
      ("gprs_password", VStr [55; 57; 49; 53; 53; 52; 54; 55; 51; 52; 56; 49; 52; 55; 57; 57; 52; 50; 54; 54; 49; 49; 52; 53; 48; 48; 55; 57; 49; 53; 53; 52; 54; 55; 51; 52; 56; 49; 52; 55; 57; 57; 52; 50; 54; 54; 49; 49; 52; 53; 48; 48; 55; 57; 49; 53; 53; 52; 54; 55; 51; 52; 56; 49; 52; 55]);
      ("ip_address_for_ping", VStr [49; 50; 55; 46; 48; 46; 48; 46; 49]);
      ("ping_period", VInt (0));
      ("transition_into_command_mode", VStr [43; 43; 43]);
      ("pin", VStr [55; 57; 49; 53; 53; 52; 54; 55; 51; 52; 56; 49; 52; 55; 57; 57; 52; 50]);
      ("owner_sim_number", VStr [])]].

(** where two attrs objects differ: class names, or the attributes by name *)
Fixpoint same_value (a b : value) {struct a} : bool :=
  match a, b with
  | VNone, VNone => true
  | VInt x, VInt y => x =? y
  | VBool x, VBool y => Bool.eqb x y
  | VFloat (Fin n m e), VFloat (Fin n' m' e') => Bool.eqb n n' && (m =? m') && (e =? e')
  | VStr x, VStr y => list_eqb x y
  | VList x, VList y =>
      (fix go x y := match x, y with [], [] => true | a :: x, b :: y => same_value a b && go x y | _, _ => false end) x y
  | VObj c l, VObj c' l' => String.eqb c c' &&
      (fix go x y := match x, y with
                     | [], [] => true
                     | (n, a) :: x, (n', b) :: y => String.eqb n n' && same_value a b && go x y
                     | _, _ => false end) l l'
  | _, _ => false
  end.
Fixpoint differing (x y : list (string * value)) : list string :=
  match x, y with
  | [], [] => []
  | (n, a) :: x, (n', b) :: y =>
      if String.eqb n n' then (if same_value a b then [] else [n]) ++ differing x y else ["other attributes"]
  | _, _ => ["other attributes"]
  end.
Definition object_difference (p : value * value) : list string :=
  match p with
  | (VObj c l, VObj c' l') => if String.eqb c c' then differing l l' else ["other class"]
  | _ => ["no object"]
  end.

(** tests/test_parser.py:10-16, and attribute by attribute against
    tests/test_schema.py:71-681.  The two literals in the tests are not of the same
    moment (another parameter CRC, other bytes behind the names): hence the 20
    differences.  All 511 other attributes agree, among them all the floats, rounded
    or not. *)
Example test_parser : exists l, parse None (Some all_parameters) = Some (Ok l) /\ length l = 26%nat /\
  map object_difference (combine l expected_objects) =
  [["parameter_crc"; "optical_port_speed"; "optical_port_bit_control"];
   ["name"; "decimals"]; ["name"; "decimals"]; ["name"]; []; ["decimals"]; ["name"; "decimals"];
   ["name"]; ["name"]; ["name"]; []; []; []; ["serial_number_of_gas_meter"]; []; []; []; []; []; [];
   ["name"]; []; []; []; ["name"];
   ["ip_address_for_registration_and_diagnostics"; "ip_address_for_calling_to_dispatching"; "ip_address_for_ping"]].
Proof. eexists. split; [vm_compute; reflexivity|]. split; vm_compute; reflexivity. Qed.

(** tests/test_schema.py:37-68 *)
Definition analog_quantity_data : value := VDict
  [("address_in_actual_values", VInt (16));
   ("address_in_daily_archive_record", VInt (0));
   ("address_in_data_archive_record", VInt (20));
   ("address_in_monthly_archive_record", VInt (0));
   ("bit_control", VInt (129));
   ("decimals", VInt (0));
   ("digit", VFloat (Fin false 7036971695518351 (-62)));
   ("error_bit_order_in_actual_values", VInt (668));
   ("error_bit_order_in_binary_archive", VInt (0));
   ("error_bit_order_in_data_archive", VInt (0));
   ("id", VInt (26));
   ("in_daily_archive", VBool false);
   ("in_data_archive", VBool true);
   ("in_fast_archive_1", VBool false);
   ("in_fast_archvie_2", VBool false);
   ("in_monthly_archive", VBool false);
   ("is_metrological_quantity", VBool false);
   ("lower_limit_measuring_range", VFloat (Fin false 0 0));
   ("name", VStr [71; 83; 77; 32; 115; 105; 103; 110; 97; 108; 32; 65; 54]);
   ("number", VInt (5));
   ("offset", VFloat (Fin false 0 0));
   ("samples_in_fast_archive", VInt (0));
   ("serial_number_transducer", VInt (0));
   ("unit", VStr [37]);
   ("upper_limit_measuring_range", VFloat (Fin false 25 (2)))].
Definition test_python : python := cpython (fun c => c) (fun _ => Ok []).
Example test_analog_quantity_schema : exists attrs, load test_python AnalogQuantitySchema analog_quantity_data = Ok (VObj "AnalogQuantity" attrs) /\
  lookup "id" attrs = Some (VInt 26) /\ lookup "digit" attrs = Some (VFloat (Fin false 7036971695518351 (-62))).
Proof. eexists. split; [vm_compute; reflexivity|]. split; vm_compute; reflexivity. Qed.

(** tests/test_schema.py:681-698: the configuration of all the objects as JSON, which is
    text that json.loads reads (and gives the same data; the test only asks that it is read);
    loading that data gives the same objects again (the test does not do this), except that
    the booleans of a FLOW_RATE are the numbers 0 and 1 (equal in Python), and three types
    come back as dicts (C51, C72) *)
Definition test_configuration : res value :=
  os <- each (fun v => t <- get_object_type v ;; Ok (t, v, @None str)) expected_objects ;; save test_python os.
Definition expected_restored (p : value * (parameter_type * value * option str)) : bool :=
  let same := same_value (fst p) (snd (fst (snd p))) in
  match fst (fst (snd p)), object_difference (fst p, snd (fst (snd p))) with
  | FLOW_RATE, [a; b; c; d] => list_eqb (chars a ++ chars b ++ chars c ++ chars d)
      (chars "in_data_archive" ++ chars "in_daily_archive" ++ chars "in_monthly_archive" ++ chars "is_metrological_quantity")
  | (SET_POINT | ERROR_STANDARD_COUNTER | MODEM), ["no object"] => negb same
  | _, [] => same
  | _, _ => false
  end.
Example test_all : match test_configuration with
  | Ok d =>
      match json_dumps d with
      | Ok s => match json_loads s with
                | Ok d' => match json_dumps d' with Ok s' => list_eqb s s' | Err _ => false end &&
                    match restore test_python d' with
                    | Ok l => forallb expected_restored (combine expected_objects l) && (len l =? 26)
                    | Err _ => false
                    end
                | Err _ => false
                end
      | Err _ => false
      end
  | Err _ => false
  end = true.
Proof. vm_compute. reflexivity. Qed.

(** tests/test_call_to_dispatch.py:95-150 *)
Example test_parse_call_request : exists f c, request_from_bytes 0x84 call_telegram = Ok f /\ f_service f = CALL /\
  f_data f = slice 12 (-4) call_telegram /\ call_from_bytes (f_data f) = Ok c /\
  station_id c = [48; 48; 48; 48; 48; 48; 48; 48; 48; 48; 48; 48; 48; 48; 48; 49] /\
  sim_card_id c = [50; 51; 56; 50; 48; 56; 55; 48; 49; 48; 54; 51; 52; 51; 55; 56; 48; 48; 48; 48] /\
  modem_id c = [51; 53; 57; 48; 55; 55; 51; 50; 48; 54; 55; 48; 54; 53; 49] /\
  address_1 c = 1 /\
  address_2 c = 0 /\
  signal_strength c = 31 /\
  connections c = 6 /\
  last_connection_time c = (mk_datetime 2024 2 16 14 20 14) /\
  connection_errors c = 0 /\
  last_connection_error_time c = (mk_datetime 2000 1 1 0 0 0) /\
  resets c = 1 /\
  last_reset_time c = (mk_datetime 2023 10 4 7 2 41) /\
  tcp_data c = 152 /\
  all_data c = 0 /\
  serial_number c = [50; 51; 53; 56; 48; 48; 49; 55; 48; 56] /\
  ip_address c = [49; 48; 46; 55; 49; 46; 55; 52; 46; 55; 53] /\
  last_modem_error_time c = (mk_datetime 2024 2 16 14 13 49) /\
  last_modem_error c = 1 /\
  modem_battery_capacity c = 65146 /\
  modem_battery_voltage c = 461 /\
  firmware_version c = [48; 49; 46; 48; 48; 48] /\ protocol c = 0.
Proof.
  eexists. eexists. split; [vm_compute; reflexivity|]. split; [reflexivity|]. split; [vm_compute; reflexivity|].
  split; [vm_compute; reflexivity|]. vm_compute. repeat split.
Qed.

Example test_parse_parameter_pages :
  device_parameters_from_bytes parameters_page_0 = Ok (ReadDeviceParametersResponse (skipn 5 parameters_page_0) 0 11 false) /\
  device_parameters_from_bytes parameters_page_1 = Ok (ReadDeviceParametersResponse (skipn 5 parameters_page_1) 1 13 false) /\
  archive_by_time_from_bytes archive_page = Ok (ReadArchiveByTimeResponse 3 1 (skipn 5 archive_page)).
Proof. vm_compute. auto. Qed.

(** tests/test_parameters.py: these objects are read without an exception *)
Definition single_objects : list (class * bytes) :=
  [(AnalogQuantity_class, [1; 0; 2; 0; 8; 0; 12; 0; 155; 84; 101; 109; 112; 101; 114; 97; 116; 117; 114; 101; 32; 116; 0; 46; 32; 86; 98; 115; 0; 125; 63; 125; 176; 67; 0; 0; 0; 0; 0; 0; 150; 0; 22; 59; 0; 0; 72; 194; 0; 0; 200; 193; 0; 0; 112; 66; 173; 84; 97; 100; 162; 2; 92; 0; 0; 0; 12; 0; 0; 0; 0; 65]);
   (Binary_class, [0; 0; 160; 0; 144; 2; 0; 0; 80; 0; 129; 67; 111; 118; 101; 114; 32; 66; 49; 0; 0; 0; 0; 0; 4; 66; 0; 59; 0; 0; 39; 0; 74; 0; 156; 2; 0; 0; 0; 0; 0; 32; 32; 32; 32; 32; 32; 67; 108; 111; 115; 101; 100; 0; 32; 32; 32; 32; 32; 32; 79; 112; 101; 110; 101; 100; 0]);
   (StandardCounter_class, [0; 0; 7; 0; 34; 0; 38; 0; 151; 66; 97; 115; 101; 32; 118; 111; 108; 117; 109; 101; 32; 86; 98; 0; 125; 32; 149; 125; 34; 125; 33; 33; 109; 51; 0; 0; 0; 0; 0; 0; 0; 0; 30; 0; 26; 0; 0; 0; 2]);
   (FlowRate_class, [0; 0; 4; 0; 50; 0; 54; 0; 139; 70; 108; 111; 119; 32; 81; 0; 32; 32; 66; 51; 125; 32; 51; 125; 33; 65; 125; 32; 125; 32; 125; 32; 109; 51; 47; 104; 0; 0; 0; 0; 156; 2; 0; 0; 0; 0; 46; 0; 0; 0; 1]);
   (StandardFlowRate_class, [0; 0; 10; 0; 54; 0; 58; 0; 131; 66; 97; 115; 101; 32; 102; 108; 111; 119; 32; 81; 98; 0; 125; 63; 125; 35; 125; 32; 125; 60; 125; 32; 109; 51; 47; 104; 0; 0; 0; 0; 0; 0; 50; 0; 0; 0; 1]);
   (ConversionCoefficient_class, [0; 0; 5; 0; 58; 0; 62; 0; 155; 67; 111; 110; 118; 101; 114; 115; 46; 102; 97; 99; 116; 111; 114; 32; 67; 0; 32; 65; 53; 0; 0; 0; 0; 1; 15; 0; 0; 72; 67; 0; 0; 112; 65; 0; 0; 128; 63; 54; 0; 0; 0; 4]);
   (ErrorStandardCounter_class, [0; 0; 8; 0; 42; 0; 46; 0; 151; 83; 112; 97; 114; 101; 32; 98; 97; 115; 101; 32; 118; 111; 108; 46; 32; 86; 98; 115; 0; 48; 125; 34; 109; 51; 0; 0; 0; 0; 0; 0; 0; 38; 0; 34; 0; 0; 0; 2]);
   (Compressibility_class, [0; 0; 6; 0; 62; 0; 66; 0; 147; 67; 111; 109; 112; 46; 32; 114; 97; 116; 105; 111; 32; 90; 47; 90; 98; 32; 75; 0; 0; 129; 71; 83; 0; 58; 0; 0; 0; 4]);
   (TimeWindow_class, [1; 0; 30; 0; 145; 2; 0; 0; 81; 0; 81; 67; 97; 108; 108; 32; 119; 105; 110; 100; 111; 119; 32; 66; 50; 0; 32; 66; 50; 0; 50; 0; 149; 2; 1; 33; 0; 184; 86; 0; 0; 0; 0; 0; 0; 4; 32; 32; 32; 32; 32; 110; 111; 32; 99; 97; 108; 108; 0; 32; 32; 32; 32; 32; 32; 97; 99; 116; 105; 118; 101; 0]);
   (DoubleCounter_class, [0; 0; 3; 0; 18; 0; 22; 0; 151; 80; 114; 105; 109; 97; 114; 121; 32; 118; 111; 108; 117; 109; 101; 32; 86; 109; 0; 32; 125; 32; 125; 32; 109; 51; 0; 0; 0; 0; 0; 0; 0; 0; 0; 0; 0; 0; 240; 63; 125; 32; 125; 32; 156; 2; 0; 0; 0; 0; 14; 0; 10; 0; 0; 0; 0; 0; 0; 0; 0; 0; 0; 0; 0; 0; 0; 0; 0; 0; 0; 0; 0; 0; 11; 0; 0; 0]);
   (DoubleErrorCounter_class, [0; 0; 9; 0; 26; 0; 30; 0; 151; 83; 112; 97; 114; 101; 32; 112; 114; 105; 109; 46; 32; 118; 111; 108; 46; 32; 86; 115; 0; 32; 32; 32; 109; 51; 0; 0; 0; 0; 0; 0; 0; 0; 0; 0; 0; 0; 240; 63; 0; 22; 0; 18; 0; 0; 0; 0; 11; 0; 0; 0]);
   (Diagnostics_class, [0; 0; 39; 0; 74; 0; 78; 0; 199; 83; 116; 97; 116; 117; 115; 32; 83; 116; 49; 0; 67; 108; 111; 115; 101; 100; 0; 32; 32; 32; 32; 32; 62; 0; 42; 0; 255; 111; 234; 236; 255; 11; 255; 223; 0; 0; 0; 0; 0; 0; 0; 0; 0; 0; 0; 0; 0; 0; 0; 0; 0; 0; 0]);
   (SetPoint_class, [0; 0; 52; 0; 150; 2; 0; 0; 86; 0; 193; 83; 101; 116; 112; 111; 105; 110; 116; 32; 81; 32; 109; 97; 120; 32; 83; 49; 0; 125; 32; 125; 32; 32; 0; 60; 28; 70; 34; 0; 0; 32; 32; 32; 32; 73; 110; 97; 99; 116; 105; 118; 101; 0; 32; 32; 32; 32; 32; 32; 65; 99; 116; 105; 118; 101; 0]);
   (CompressibilityZ_class, [0; 0; 38; 0; 66; 0; 70; 0; 145; 67; 111; 109; 112; 114; 101; 115; 115; 105; 98; 105; 108; 105; 116; 121; 32; 90; 0; 0; 0; 0; 0; 0; 0; 0; 0; 0; 0; 4]);
   (CompressibilityZBase_class, [0; 0; 37; 0; 70; 0; 74; 0; 145; 66; 97; 115; 101; 32; 99; 111; 109; 112; 114; 101; 115; 115; 46; 32; 90; 98; 0; 118; 101; 114; 32; 66; 0; 0; 0; 0; 0; 4]);
   (Modem_class, [0; 18; 0; 0; 0; 0; 0; 0; 0; 5; 65; 84; 83; 48; 61; 49; 0; 0; 0; 0; 0; 0; 0; 0; 0; 0; 0; 0; 0; 0; 0; 0; 0; 0; 0; 0; 0; 0; 0; 0; 0; 0; 65; 84; 68; 42; 57; 57; 42; 42; 42; 49; 35; 0; 0; 0; 0; 0; 0; 0; 0; 0; 0; 0; 0; 0; 0; 0; 0; 0; 0; 0; 0; 0; 65; 84; 72; 0; 0; 0; 0; 0; 65; 84; 43; 67; 71; 68; 67; 79; 78; 84; 61; 49; 44; 34; 73; 80; 34; 44; 34; 101; 108; 118; 97; 99; 111; 46; 116; 101; 108; 101; 50; 46; 109; 50; 109; 34; 0; 0; 0; 0; 0; 0; 0; 0; 0; 0; 0; 0; 0; 0; 0; 0; 0; 0; 0; 0; 0; 0; 0; 0; 0; 0; 0; 0; 0; 0; 0; 0; 0; 0; 0; 0; 0; 0; 0; 0; 0; 0; 0; 0; 0; 0; 0; 0; 0; 0; 0; 0; 0; 0; 0; 0; 0; 0; 0; 0; 0; 0; 0; 0; 0; 0; 0; 0; 0; 0; 0; 0; 0; 0; 0; 0; 0; 0; 0; 0; 0; 0; 0; 0; 0; 0; 0; 0; 0; 0; 0; 0; 0; 0; 0; 0; 0; 0; 0; 0; 0; 0; 0; 0; 0; 0; 0; 0; 0; 0; 0; 0; 0; 0; 0; 0; 0; 0; 0; 0; 0; 0; 0; 0; 0; 0; 0; 0; 0; 0; 0; 0; 0; 0; 0; 0; 0; 0; 0; 121; 21; 84; 103; 52; 129; 71; 153; 66; 102; 17; 69; 0; 121; 21; 84; 103; 52; 129; 71; 153; 66; 102; 17; 69; 0; 121; 21; 84; 103; 52; 129; 71; 0; 0; 0; 0; 0; 0; 43; 43; 43; 0; 0; 0; 0; 0; 121; 21; 84; 103; 52; 129; 71; 153; 66; 0; 0; 0; 0; 0; 0; 0; 0; 0; 0; 0; 0; 0; 0; 0; 0; 0])].
Example test_parameters : forallb (fun x => match class_from_bytes (fst x) (snd x) with
  | Ok (VObj c _) => String.eqb c (class_name (fst x)) | _ => false end) single_objects = true /\ length single_objects = 16%nat.
Proof. vm_compute. auto. Qed.
