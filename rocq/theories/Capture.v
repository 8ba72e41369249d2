(* The distinct RANAP, RUA and HNBAP messages in the packet captures of /repo/pcap.
   Above each message the file and
   the number of the first frame that has it.  They were cut out of the packets by
   a script, which put SCTP chunks and segmented SCCP messages together. *)
From Verif Require Import Base.
From Coq Require Import List.
Import ListNotations.
Local Open Scope N_scope.
Local Open Scope list_scope.

(* /repo/pcap *)
Definition captured_ranap : list (list N) := [
  (* pcap/2016-01-22_PS_data.pcapng frame 47 *)
  [0; 19; 64; 104; 64; 0; 7; 0; 3; 64; 1; 128; 0; 15; 64; 6; 0; 9; 241; 137; 64; 32; 0; 55; 64; 1; 100; 0; 58; 64; 8; 0; 9; 241; 137; 64; 32; 0; 1; 0; 16; 64; 34; 33; 8; 1; 2; 229; 224; 1; 10; 0; 5; 244; 244; 227; 114; 251; 9; 241; 152; 64; 32; 100; 10; 8; 115; 67; 43; 55; 21; 150; 98; 30; 64; 23; 5; 0; 79; 64; 3; 0; 0; 1; 0; 86; 64; 5; 9; 241; 137; 0; 0; 0; 0; 0; 23; 64; 9; 80; 98; 114; 135; 32; 22; 116; 49; 245];
  (* pcap/2016-01-22_PS_data.pcapng frame 56 *)
  [0; 20; 0; 16; 0; 0; 2; 0; 16; 64; 4; 3; 8; 21; 2; 0; 59; 64; 1; 0];
  (* pcap/2016-01-22_PS_data.pcapng frame 57 *)
  [0; 20; 64; 46; 0; 0; 4; 0; 16; 64; 12; 11; 8; 22; 8; 58; 69; 0; 0; 3; 148; 135; 4; 0; 15; 64; 6; 0; 9; 241; 137; 64; 32; 0; 55; 64; 1; 100; 0; 58; 64; 8; 0; 9; 241; 137; 64; 32; 0; 1];
  (* pcap/2016-01-22_PS_data.pcapng frame 58 *)
  [0; 20; 0; 16; 0; 0; 2; 0; 16; 64; 4; 3; 8; 21; 1; 0; 59; 64; 1; 0];
  (* pcap/2016-01-22_PS_data.pcapng frame 61 *)
  [0; 20; 64; 46; 0; 0; 4; 0; 16; 64; 12; 11; 8; 22; 8; 41; 38; 119; 8; 98; 65; 23; 83; 0; 15; 64; 6; 0; 9; 241; 137; 64; 32; 0; 55; 64; 1; 100; 0; 58; 64; 8; 0; 9; 241; 137; 64; 32; 0; 1];
  (* pcap/2016-01-22_PS_data.pcapng frame 62 *)
  [0; 20; 0; 35; 0; 0; 2; 0; 16; 64; 23; 22; 8; 18; 16; 0; 33; 0; 0; 0; 0; 0; 0; 0; 0; 0; 0; 0; 0; 0; 0; 0; 0; 128; 0; 59; 64; 1; 0];
  (* pcap/2016-01-22_PS_data.pcapng frame 66 *)
  [0; 20; 64; 54; 0; 0; 4; 0; 16; 64; 20; 19; 8; 19; 0; 34; 97; 181; 105; 245; 35; 9; 51; 69; 0; 0; 3; 148; 135; 4; 245; 0; 15; 64; 6; 0; 9; 241; 137; 64; 32; 0; 55; 64; 1; 100; 0; 58; 64; 8; 0; 9; 241; 137; 64; 32; 0; 1];
  (* pcap/2016-01-22_PS_data.pcapng frame 70 *)
  [0; 20; 0; 33; 0; 0; 2; 0; 16; 64; 21; 20; 8; 2; 1; 42; 4; 9; 241; 152; 64; 32; 100; 23; 22; 24; 5; 244; 213; 205; 247; 186; 0; 59; 64; 1; 0];
  (* pcap/2016-01-22_PS_data.pcapng frame 72 *)
  [0; 6; 0; 30; 0; 0; 2; 0; 12; 0; 18; 8; 8; 187; 164; 170; 237; 217; 217; 194; 237; 98; 125; 104; 0; 187; 164; 170; 237; 0; 75; 0; 1; 64];
  (* pcap/2016-01-22_PS_data.pcapng frame 74 *)
  [32; 6; 0; 13; 0; 0; 2; 0; 6; 0; 1; 0; 0; 5; 64; 1; 0];
  (* pcap/2016-01-22_PS_data.pcapng frame 82 *)
  [0; 20; 64; 37; 0; 0; 4; 0; 16; 64; 3; 2; 8; 3; 0; 15; 64; 6; 0; 9; 241; 137; 64; 32; 0; 55; 64; 1; 100; 0; 58; 64; 8; 0; 9; 241; 137; 64; 32; 0; 1];
  (* pcap/2016-01-22_PS_data.pcapng frame 89 *)
  [0; 20; 64; 90; 0; 0; 4; 0; 16; 64; 56; 55; 10; 65; 5; 3; 14; 0; 0; 0; 0; 0; 0; 0; 0; 0; 0; 0; 0; 0; 0; 2; 1; 33; 40; 9; 8; 105; 110; 116; 101; 114; 110; 101; 116; 39; 20; 128; 128; 33; 16; 1; 0; 0; 16; 129; 6; 0; 0; 0; 0; 131; 6; 0; 0; 0; 0; 0; 15; 64; 6; 0; 9; 241; 137; 64; 32; 0; 55; 64; 1; 100; 0; 58; 64; 8; 0; 9; 241; 137; 64; 32; 0; 1];
  (* pcap/2016-01-22_PS_data.pcapng frame 92 *)
  [0; 0; 0; 57; 0; 0; 1; 0; 54; 64; 50; 0; 0; 1; 0; 53; 0; 35; 56; 2; 16; 222; 24; 105; 255; 128; 12; 52; 255; 0; 31; 64; 8; 6; 8; 158; 0; 0; 4; 27; 128; 53; 0; 1; 192; 168; 0; 51; 0; 0; 0; 0; 1; 64; 6; 120; 28; 0; 0; 0; 0];
  (* pcap/2016-01-22_PS_data.pcapng frame 97 *)
  [96; 0; 0; 29; 0; 0; 1; 0; 52; 64; 22; 0; 0; 1; 0; 51; 64; 15; 96; 8; 220; 53; 0; 1; 192; 168; 0; 50; 0; 0; 0; 0; 1];
  (* pcap/2016-01-22_PS_data.pcapng frame 98 *)
  [0; 20; 0; 62; 0; 0; 2; 0; 16; 64; 50; 49; 138; 66; 3; 14; 35; 98; 31; 114; 153; 63; 63; 17; 67; 255; 255; 0; 0; 0; 0; 43; 6; 1; 33; 10; 23; 42; 2; 39; 20; 128; 128; 33; 16; 2; 0; 0; 16; 129; 6; 8; 8; 8; 8; 131; 6; 0; 0; 0; 0; 0; 59; 64; 1; 0];
  (* pcap/2016-01-22_PS_data.pcapng frame 2113 *)
  [0; 11; 64; 9; 0; 0; 1; 0; 4; 64; 2; 9; 192];
  (* pcap/2016-01-22_PS_data.pcapng frame 2114 *)
  [0; 1; 0; 9; 0; 0; 1; 0; 4; 64; 2; 9; 128];
  (* pcap/2016-01-22_PS_data.pcapng frame 2115 *)
  [32; 1; 0; 3; 0; 0; 0];
  (* pcap/2016-01-22_PS_data.pcapng frame 2123 *)
  [0; 19; 64; 111; 64; 0; 7; 0; 3; 64; 1; 128; 0; 15; 64; 6; 0; 9; 241; 137; 64; 32; 0; 55; 64; 1; 100; 0; 58; 64; 8; 0; 9; 241; 137; 64; 32; 0; 1; 0; 16; 64; 41; 40; 8; 8; 0; 9; 241; 152; 64; 32; 100; 10; 8; 115; 67; 43; 55; 21; 150; 98; 30; 64; 23; 5; 39; 10; 0; 24; 5; 244; 213; 205; 247; 186; 49; 2; 229; 224; 50; 2; 32; 0; 0; 79; 64; 3; 0; 0; 2; 0; 86; 64; 5; 9; 241; 137; 0; 0; 0; 0; 0; 23; 64; 9; 80; 98; 114; 135; 32; 22; 116; 49; 245];
  (* pcap/2016-01-22_PS_data.pcapng frame 2158 *)
  [0; 20; 64; 75; 0; 0; 4; 0; 16; 64; 41; 40; 8; 8; 8; 9; 241; 152; 64; 32; 100; 10; 8; 115; 67; 43; 55; 21; 150; 98; 30; 64; 23; 5; 39; 10; 0; 24; 5; 244; 213; 205; 247; 186; 49; 2; 229; 224; 50; 2; 32; 0; 0; 15; 64; 6; 0; 9; 241; 137; 64; 32; 0; 55; 64; 1; 100; 0; 58; 64; 8; 0; 9; 241; 137; 64; 32; 0; 1];
  (* pcap/UPP RANAP.pcap frame 21 *)
  [0; 10; 64; 17; 0; 0; 1; 0; 41; 64; 10; 0; 0; 1; 0; 40; 64; 3; 1; 64; 240];
  (* pcap/UPP RANAP.pcap frame 23 *)
  [0; 1; 0; 9; 0; 0; 1; 0; 4; 64; 2; 7; 128];
  (* pcap/UPP RANAP.pcap frame 43 *)
  [0; 19; 64; 64; 0; 0; 6; 0; 3; 64; 1; 0; 0; 15; 64; 6; 0; 130; 246; 16; 240; 60; 0; 58; 64; 8; 0; 130; 246; 16; 240; 60; 73; 198; 0; 16; 64; 14; 13; 6; 39; 1; 3; 87; 88; 146; 5; 244; 48; 0; 42; 127; 0; 79; 64; 3; 28; 163; 3; 0; 86; 64; 5; 130; 246; 16; 11; 83];
  (* pcap/UPP RANAP.pcap frame 47 *)
  [0; 17; 64; 8; 0; 0; 1; 0; 57; 64; 1; 16];
  (* pcap/UPP RANAP.pcap frame 47 *)
  [0; 20; 64; 32; 0; 0; 2; 0; 16; 64; 20; 19; 5; 18; 2; 223; 211; 64; 16; 51; 159; 198; 113; 0; 3; 14; 168; 220; 89; 159; 82; 0; 59; 64; 1; 0];
  (* pcap/UPP RANAP.pcap frame 49 *)
  [0; 18; 64; 14; 0; 0; 2; 0; 4; 64; 2; 9; 64; 0; 57; 64; 1; 16];
  (* pcap/UPP RANAP.pcap frame 69 *)
  [0; 20; 64; 14; 0; 0; 1; 0; 16; 64; 7; 6; 5; 20; 141; 183; 7; 246];
  (* pcap/UPP RANAP.pcap frame 71 *)
  [0; 15; 64; 16; 0; 0; 1; 0; 23; 64; 9; 80; 130; 6; 81; 131; 32; 23; 128; 245];
  (* pcap/UPP RANAP.pcap frame 71 *)
  [0; 6; 0; 52; 0; 0; 3; 0; 12; 0; 18; 0; 0; 142; 173; 247; 249; 111; 8; 63; 2; 225; 165; 200; 251; 142; 173; 247; 249; 0; 11; 64; 18; 0; 128; 111; 8; 63; 2; 225; 165; 200; 251; 111; 8; 63; 2; 225; 165; 200; 251; 0; 75; 0; 1; 64];
  (* pcap/UPP RANAP.pcap frame 83 *)
  [32; 6; 0; 13; 0; 0; 2; 0; 6; 0; 1; 0; 0; 5; 64; 1; 16];
  (* pcap/UPP RANAP.pcap frame 85 *)
  [0; 20; 64; 16; 0; 0; 2; 0; 16; 64; 4; 3; 5; 24; 3; 0; 59; 64; 1; 0];
  (* pcap/UPP RANAP.pcap frame 93 *)
  [0; 20; 64; 20; 0; 0; 1; 0; 16; 64; 13; 12; 5; 89; 9; 51; 149; 7; 2; 21; 151; 120; 2; 241];
  (* pcap/UPP RANAP.pcap frame 95 *)
  [0; 20; 64; 95; 0; 0; 2; 0; 16; 64; 83; 82; 9; 1; 79; 1; 1; 7; 145; 9; 53; 146; 16; 0; 0; 0; 67; 4; 12; 145; 9; 53; 105; 4; 52; 20; 0; 0; 65; 48; 114; 97; 80; 117; 128; 54; 212; 58; 26; 13; 210; 157; 80; 32; 119; 57; 63; 47; 131; 196; 97; 121; 26; 244; 62; 203; 203; 238; 118; 185; 13; 58; 151; 229; 229; 117; 217; 205; 46; 203; 65; 236; 244; 156; 94; 158; 167; 65; 97; 125; 152; 77; 78; 3; 0; 59; 64; 1; 64];
  (* pcap/UPP RANAP.pcap frame 105 *)
  [0; 20; 64; 10; 0; 0; 1; 0; 16; 64; 3; 2; 137; 4];
  (* pcap/UPP RANAP.pcap frame 117 *)
  [0; 20; 64; 13; 0; 0; 1; 0; 16; 64; 6; 5; 137; 1; 2; 2; 1];
  (* pcap/UPP RANAP.pcap frame 119 *)
  [0; 20; 64; 15; 0; 0; 2; 0; 16; 64; 3; 2; 9; 4; 0; 59; 64; 1; 64];
  (* pcap/UPP RANAP.pcap frame 119 *)
  [0; 1; 0; 8; 0; 0; 1; 0; 4; 64; 1; 34];
  (* pcap/UPP RANAP.pcap frame 207 *)
  [0; 19; 64; 69; 0; 0; 7; 0; 3; 64; 1; 128; 0; 15; 64; 6; 0; 130; 246; 16; 240; 60; 0; 55; 64; 1; 1; 0; 58; 64; 8; 0; 130; 246; 16; 240; 60; 71; 127; 0; 16; 64; 14; 13; 8; 12; 17; 5; 244; 202; 5; 178; 194; 50; 2; 32; 0; 0; 79; 64; 3; 28; 163; 4; 0; 86; 64; 5; 130; 246; 16; 11; 83];
  (* pcap/UPP RANAP.pcap frame 209 *)
  [0; 15; 64; 16; 0; 0; 1; 0; 23; 64; 9; 80; 130; 6; 81; 24; 5; 96; 148; 246];
  (* pcap/UPP RANAP.pcap frame 209 *)
  [0; 6; 0; 52; 0; 0; 3; 0; 12; 64; 18; 8; 8; 113; 35; 37; 122; 11; 178; 188; 69; 122; 145; 153; 63; 113; 35; 37; 122; 0; 11; 64; 18; 8; 144; 11; 178; 188; 69; 122; 145; 153; 63; 11; 178; 188; 69; 122; 145; 153; 63; 0; 75; 0; 1; 0];
  (* pcap/UPP RANAP.pcap frame 223 *)
  [0; 0; 0; 69; 0; 0; 1; 0; 54; 64; 62; 0; 0; 1; 0; 53; 0; 43; 56; 10; 54; 158; 244; 35; 255; 128; 124; 255; 255; 128; 46; 224; 8; 6; 8; 145; 61; 0; 0; 0; 177; 64; 5; 96; 1; 140; 186; 127; 0; 0; 16; 62; 10; 179; 238; 252; 0; 18; 33; 28; 250; 64; 10; 97; 24; 0; 0; 0; 89; 64; 2; 64; 0];
  (* pcap/UPP RANAP.pcap frame 245 *)
  [96; 0; 0; 29; 0; 0; 1; 0; 52; 64; 22; 0; 0; 1; 0; 51; 64; 15; 112; 40; 124; 10; 106; 7; 45; 0; 0; 0; 1; 8; 32; 0; 5];
  (* pcap/UPP RANAP.pcap frame 271 *)
  [0; 1; 0; 9; 0; 0; 1; 0; 4; 64; 2; 9; 192];
  (* pcap/UPP RANAP.pcap frame 335 *)
  [0; 19; 64; 74; 0; 0; 6; 0; 3; 64; 1; 0; 0; 15; 64; 6; 0; 130; 246; 16; 234; 186; 0; 58; 64; 8; 0; 130; 246; 16; 234; 186; 182; 14; 0; 16; 64; 24; 23; 5; 8; 0; 130; 246; 16; 243; 226; 87; 8; 41; 104; 16; 5; 53; 18; 34; 131; 51; 3; 87; 88; 160; 0; 79; 64; 3; 28; 163; 5; 0; 86; 64; 5; 130; 246; 16; 11; 83];
  (* pcap/UPP RANAP.pcap frame 343 *)
  [0; 19; 64; 111; 0; 0; 7; 0; 3; 64; 1; 128; 0; 15; 64; 6; 0; 130; 246; 16; 234; 186; 0; 55; 64; 1; 1; 0; 58; 64; 8; 0; 130; 246; 16; 234; 186; 182; 14; 0; 16; 64; 56; 55; 8; 8; 16; 130; 246; 16; 243; 226; 1; 22; 24; 115; 3; 42; 183; 21; 86; 98; 30; 66; 232; 163; 25; 136; 121; 9; 162; 44; 102; 33; 228; 0; 25; 42; 64; 128; 39; 10; 0; 24; 5; 244; 203; 53; 192; 229; 49; 3; 229; 128; 0; 50; 2; 0; 0; 0; 79; 64; 3; 28; 163; 6; 0; 86; 64; 5; 130; 246; 16; 11; 83];
  (* pcap/UPP RANAP.pcap frame 345 *)
  [0; 20; 64; 35; 0; 0; 2; 0; 16; 64; 23; 22; 8; 18; 16; 144; 33; 155; 4; 58; 34; 180; 9; 15; 48; 78; 224; 27; 94; 17; 32; 19; 244; 129; 0; 59; 64; 1; 0];
  (* pcap/UPP RANAP.pcap frame 349 *)
  [0; 20; 64; 32; 0; 0; 2; 0; 16; 64; 20; 19; 5; 18; 0; 227; 132; 171; 1; 252; 95; 115; 127; 131; 78; 150; 147; 169; 124; 76; 32; 0; 59; 64; 1; 0];
  (* pcap/UPP RANAP.pcap frame 365 *)
  [0; 20; 64; 54; 0; 0; 4; 0; 16; 64; 20; 19; 8; 19; 9; 34; 223; 107; 247; 22; 35; 9; 3; 49; 145; 6; 0; 40; 71; 17; 242; 0; 15; 64; 6; 0; 130; 246; 16; 234; 186; 0; 55; 64; 1; 1; 0; 58; 64; 8; 0; 130; 246; 16; 234; 186; 182; 14];
  (* pcap/UPP RANAP.pcap frame 369 *)
  [0; 6; 0; 52; 0; 0; 3; 0; 12; 64; 18; 8; 8; 157; 154; 182; 8; 34; 248; 228; 232; 191; 98; 82; 224; 157; 154; 182; 8; 0; 11; 64; 18; 8; 144; 34; 248; 228; 232; 191; 98; 82; 224; 34; 248; 228; 232; 191; 98; 82; 224; 0; 75; 0; 1; 64];
  (* pcap/UPP RANAP.pcap frame 377 *)
  [0; 20; 64; 10; 0; 0; 1; 0; 16; 64; 3; 2; 5; 112];
  (* pcap/UPP RANAP.pcap frame 379 *)
  [0; 20; 64; 14; 0; 0; 1; 0; 16; 64; 7; 6; 5; 148; 93; 246; 242; 137];
  (* pcap/UPP RANAP.pcap frame 381 *)
  [0; 15; 64; 16; 0; 0; 1; 0; 23; 64; 9; 80; 130; 6; 81; 80; 35; 33; 50; 248];
  (* pcap/UPP RANAP.pcap frame 381 *)
  [0; 6; 0; 52; 0; 0; 3; 0; 12; 0; 18; 0; 0; 180; 73; 185; 43; 195; 41; 59; 41; 119; 96; 130; 2; 180; 73; 185; 43; 0; 11; 64; 18; 0; 128; 195; 41; 59; 41; 119; 96; 130; 2; 195; 41; 59; 41; 119; 96; 130; 2; 0; 75; 0; 1; 64];
  (* pcap/UPP RANAP.pcap frame 409 *)
  [0; 20; 64; 39; 0; 0; 2; 0; 16; 64; 27; 26; 8; 9; 0; 94; 130; 246; 16; 234; 186; 1; 25; 46; 177; 224; 24; 5; 244; 199; 30; 198; 0; 50; 2; 0; 0; 184; 0; 59; 64; 1; 0];
  (* pcap/UPP RANAP.pcap frame 409 *)
  [0; 20; 64; 34; 0; 0; 2; 0; 16; 64; 22; 21; 8; 33; 67; 1; 128; 69; 1; 128; 70; 128; 71; 65; 48; 114; 65; 96; 33; 128; 73; 1; 0; 0; 59; 64; 1; 0];
  (* pcap/UPP RANAP.pcap frame 423 *)
  [0; 19; 64; 69; 0; 0; 7; 0; 3; 64; 1; 128; 0; 15; 64; 6; 0; 130; 246; 16; 234; 186; 0; 55; 64; 1; 1; 0; 58; 64; 8; 0; 130; 246; 16; 234; 186; 0; 10; 0; 16; 64; 14; 13; 8; 12; 17; 5; 244; 195; 164; 88; 77; 50; 2; 32; 0; 0; 79; 64; 3; 28; 163; 7; 0; 86; 64; 5; 130; 246; 16; 11; 83];
  (* pcap/UPP RANAP.pcap frame 425 *)
  [0; 15; 64; 16; 0; 0; 1; 0; 23; 64; 9; 80; 130; 6; 81; 87; 22; 9; 150; 248];
  (* pcap/UPP RANAP.pcap frame 425 *)
  [0; 6; 0; 52; 0; 0; 3; 0; 12; 64; 18; 8; 8; 95; 40; 131; 154; 95; 44; 179; 85; 0; 4; 48; 207; 95; 40; 131; 154; 0; 11; 64; 18; 8; 144; 95; 44; 179; 85; 0; 4; 48; 207; 95; 44; 179; 85; 0; 4; 48; 207; 0; 75; 0; 1; 0];
  (* pcap/UPP RANAP.pcap frame 433 *)
  [0; 20; 64; 26; 0; 0; 2; 0; 16; 64; 14; 13; 5; 26; 130; 246; 16; 234; 186; 5; 244; 64; 0; 44; 119; 0; 59; 64; 1; 0];
  (* pcap/UPP RANAP.pcap frame 441 *)
  [0; 20; 64; 37; 0; 0; 4; 0; 16; 64; 3; 2; 8; 10; 0; 15; 64; 6; 0; 130; 246; 16; 234; 186; 0; 55; 64; 1; 1; 0; 58; 64; 8; 0; 130; 246; 16; 234; 186; 182; 14];
  (* pcap/UPP RANAP.pcap frame 445 *)
  [0; 20; 64; 10; 0; 0; 1; 0; 16; 64; 3; 2; 5; 219];
  (* pcap/UPP RANAP.pcap frame 455 *)
  [0; 20; 64; 20; 0; 0; 1; 0; 16; 64; 13; 12; 5; 25; 9; 3; 49; 145; 6; 0; 40; 71; 17; 242];
  (* pcap/UPP RANAP.pcap frame 461 *)
  [0; 0; 0; 69; 0; 0; 1; 0; 54; 64; 62; 0; 0; 1; 0; 53; 0; 43; 56; 10; 54; 158; 244; 35; 255; 128; 124; 255; 255; 128; 46; 224; 8; 6; 8; 145; 61; 0; 0; 0; 177; 64; 5; 96; 1; 140; 186; 127; 0; 0; 16; 62; 10; 179; 238; 253; 0; 20; 28; 102; 17; 64; 10; 97; 24; 0; 0; 0; 89; 64; 2; 64; 0];
  (* pcap/UPP RANAP.pcap frame 465 *)
  [0; 20; 64; 36; 0; 0; 2; 0; 16; 64; 24; 23; 5; 50; 67; 8; 128; 212; 170; 116; 57; 44; 50; 153; 71; 65; 48; 114; 65; 96; 49; 128; 73; 1; 0; 0; 59; 64; 1; 0];
  (* pcap/UPP RANAP.pcap frame 465 *)
  [0; 20; 64; 20; 0; 0; 2; 0; 16; 64; 8; 7; 5; 2; 130; 246; 16; 234; 186; 0; 59; 64; 1; 0];
  (* pcap/UPP RANAP.pcap frame 489 *)
  [96; 0; 0; 29; 0; 0; 1; 0; 52; 64; 22; 0; 0; 1; 0; 51; 64; 15; 112; 40; 124; 10; 106; 6; 191; 0; 0; 0; 13; 47; 32; 0; 5];
  (* pcap/UPP RANAP.pcap frame 491 *)
  [0; 14; 64; 51; 0; 0; 6; 0; 3; 64; 1; 128; 0; 23; 64; 9; 80; 130; 6; 81; 18; 5; 113; 52; 245; 0; 64; 64; 5; 64; 197; 201; 127; 246; 0; 21; 64; 7; 64; 130; 246; 16; 234; 186; 1; 0; 22; 64; 1; 32; 0; 17; 64; 1; 128];
  (* pcap/UPP RANAP.pcap frame 535 *)
  [0; 19; 64; 71; 0; 0; 6; 0; 3; 64; 1; 0; 0; 15; 64; 6; 0; 130; 246; 16; 240; 60; 0; 58; 64; 8; 0; 130; 246; 16; 240; 60; 73; 198; 0; 16; 64; 21; 20; 5; 8; 0; 130; 246; 16; 170; 201; 87; 5; 244; 152; 20; 58; 213; 51; 3; 87; 88; 178; 0; 79; 64; 3; 28; 163; 8; 0; 86; 64; 5; 130; 246; 16; 11; 83];
  (* pcap/UPP RANAP.pcap frame 539 *)
  [0; 19; 64; 69; 0; 0; 7; 0; 3; 64; 1; 128; 0; 15; 64; 6; 0; 130; 246; 16; 234; 186; 0; 55; 64; 1; 1; 0; 58; 64; 8; 0; 130; 246; 16; 234; 186; 182; 14; 0; 16; 64; 14; 13; 8; 12; 17; 5; 244; 194; 82; 128; 91; 50; 2; 32; 0; 0; 79; 64; 3; 28; 163; 9; 0; 86; 64; 5; 130; 246; 16; 11; 83];
  (* pcap/UPP RANAP.pcap frame 541 *)
  [0; 20; 64; 16; 0; 0; 2; 0; 16; 64; 4; 3; 5; 24; 1; 0; 59; 64; 1; 0];
  (* pcap/UPP RANAP.pcap frame 543 *)
  [0; 15; 64; 16; 0; 0; 1; 0; 23; 64; 9; 80; 130; 6; 81; 151; 2; 130; 8; 246];
  (* pcap/UPP RANAP.pcap frame 543 *)
  [0; 6; 0; 52; 0; 0; 3; 0; 12; 64; 18; 8; 8; 158; 228; 26; 127; 24; 58; 118; 127; 134; 222; 108; 0; 158; 228; 26; 127; 0; 11; 64; 18; 8; 144; 24; 58; 118; 127; 134; 222; 108; 0; 24; 58; 118; 127; 134; 222; 108; 0; 0; 75; 0; 1; 0];
  (* pcap/UPP RANAP.pcap frame 551 *)
  [0; 19; 64; 102; 0; 0; 7; 0; 3; 64; 1; 128; 0; 15; 64; 6; 0; 130; 246; 16; 240; 60; 0; 55; 64; 1; 1; 0; 58; 64; 8; 0; 130; 246; 16; 240; 60; 73; 198; 0; 16; 64; 47; 46; 8; 8; 16; 130; 246; 16; 170; 201; 1; 13; 23; 115; 67; 43; 37; 145; 137; 0; 99; 229; 102; 75; 192; 25; 24; 117; 189; 39; 32; 2; 24; 5; 244; 202; 80; 25; 93; 49; 3; 245; 225; 0; 50; 2; 0; 0; 0; 79; 64; 3; 28; 163; 10; 0; 86; 64; 5; 130; 246; 16; 11; 83];
  (* pcap/UPP RANAP.pcap frame 553 *)
  [0; 20; 64; 35; 0; 0; 2; 0; 16; 64; 23; 22; 8; 18; 0; 96; 33; 11; 189; 145; 170; 134; 118; 47; 117; 196; 96; 133; 168; 32; 242; 2; 103; 129; 0; 59; 64; 1; 0];
  (* pcap/UPP RANAP.pcap frame 561 *)
  [0; 20; 64; 19; 0; 0; 1; 0; 16; 64; 12; 11; 5; 89; 8; 41; 104; 16; 117; 117; 2; 128; 145];
  (* pcap/UPP RANAP.pcap frame 563 *)
  [0; 20; 64; 32; 0; 0; 2; 0; 16; 64; 20; 19; 5; 18; 0; 114; 56; 254; 236; 74; 28; 164; 143; 157; 208; 154; 3; 124; 168; 207; 69; 0; 59; 64; 1; 0];
  (* pcap/UPP RANAP.pcap frame 571 *)
  [0; 20; 64; 43; 0; 0; 4; 0; 16; 64; 9; 8; 8; 19; 6; 34; 214; 0; 26; 204; 0; 15; 64; 6; 0; 130; 246; 16; 240; 60; 0; 55; 64; 1; 1; 0; 58; 64; 8; 0; 130; 246; 16; 240; 60; 73; 198];
  (* pcap/UPP RANAP.pcap frame 577 *)
  [0; 0; 0; 69; 0; 0; 1; 0; 54; 64; 62; 0; 0; 1; 0; 53; 0; 43; 56; 10; 54; 158; 244; 35; 255; 128; 124; 255; 255; 128; 46; 224; 8; 6; 8; 145; 61; 0; 0; 0; 177; 64; 5; 96; 1; 140; 186; 127; 0; 0; 16; 62; 10; 179; 238; 253; 0; 28; 29; 174; 5; 64; 10; 97; 24; 0; 0; 0; 89; 64; 2; 64; 0];
  (* pcap/UPP RANAP.pcap frame 581 *)
  [0; 6; 0; 52; 0; 0; 3; 0; 12; 64; 18; 8; 8; 248; 38; 28; 69; 196; 37; 231; 106; 60; 3; 251; 47; 248; 38; 28; 69; 0; 11; 64; 18; 8; 144; 196; 37; 231; 106; 60; 3; 251; 47; 196; 37; 231; 106; 60; 3; 251; 47; 0; 75; 0; 1; 64];
  (* pcap/UPP RANAP.pcap frame 587 *)
  [0; 20; 64; 10; 0; 0; 1; 0; 16; 64; 3; 2; 5; 176];
  (* pcap/UPP RANAP.pcap frame 591 *)
  [0; 20; 64; 14; 0; 0; 1; 0; 16; 64; 7; 6; 5; 212; 80; 81; 183; 114];
  (* pcap/UPP RANAP.pcap frame 593 *)
  [0; 15; 64; 16; 0; 0; 1; 0; 23; 64; 9; 80; 130; 6; 81; 87; 39; 0; 24; 249];
  (* pcap/UPP RANAP.pcap frame 593 *)
  [0; 6; 0; 52; 0; 0; 3; 0; 12; 0; 18; 0; 0; 116; 181; 41; 25; 224; 147; 87; 131; 148; 38; 126; 154; 116; 181; 41; 25; 0; 11; 64; 18; 0; 128; 224; 147; 87; 131; 148; 38; 126; 154; 224; 147; 87; 131; 148; 38; 126; 154; 0; 75; 0; 1; 64];
  (* pcap/UPP RANAP.pcap frame 611 *)
  [0; 20; 64; 26; 0; 0; 2; 0; 16; 64; 14; 13; 5; 26; 130; 246; 16; 240; 60; 5; 244; 0; 0; 35; 191; 0; 59; 64; 1; 0];
  (* pcap/UPP RANAP.pcap frame 615 *)
  [0; 19; 64; 69; 0; 0; 7; 0; 3; 64; 1; 128; 0; 15; 64; 6; 0; 130; 246; 16; 234; 186; 0; 55; 64; 1; 1; 0; 58; 64; 8; 0; 130; 246; 16; 234; 186; 182; 14; 0; 16; 64; 14; 13; 8; 12; 33; 5; 244; 197; 201; 127; 246; 50; 2; 32; 0; 0; 79; 64; 3; 28; 163; 11; 0; 86; 64; 5; 130; 246; 16; 11; 83];
  (* pcap/UPP RANAP.pcap frame 617 *)
  [0; 15; 64; 16; 0; 0; 1; 0; 23; 64; 9; 80; 130; 6; 81; 18; 5; 113; 52; 245];
  (* pcap/UPP RANAP.pcap frame 617 *)
  [0; 6; 0; 52; 0; 0; 3; 0; 12; 64; 18; 8; 8; 135; 231; 71; 143; 64; 120; 62; 139; 199; 159; 121; 4; 135; 231; 71; 143; 0; 11; 64; 18; 8; 144; 64; 120; 62; 139; 199; 159; 121; 4; 64; 120; 62; 139; 199; 159; 121; 4; 0; 75; 0; 1; 0];
  (* pcap/UPP RANAP.pcap frame 627 *)
  [0; 20; 64; 10; 0; 0; 1; 0; 16; 64; 3; 2; 5; 27];
  (* pcap/UPP RANAP.pcap frame 639 *)
  [96; 0; 0; 29; 0; 0; 1; 0; 52; 64; 22; 0; 0; 1; 0; 51; 64; 15; 112; 40; 124; 10; 106; 7; 47; 0; 0; 0; 1; 249; 32; 0; 5];
  (* pcap/UPP RANAP.pcap frame 643 *)
  [0; 20; 64; 20; 0; 0; 1; 0; 16; 64; 13; 12; 5; 89; 9; 51; 149; 101; 0; 17; 137; 149; 9; 241];
  (* pcap/UPP RANAP.pcap frame 649 *)
  [0; 20; 64; 39; 0; 0; 2; 0; 16; 64; 27; 26; 8; 9; 0; 94; 130; 246; 16; 240; 60; 1; 25; 42; 211; 179; 24; 5; 244; 196; 25; 133; 51; 50; 2; 0; 0; 184; 0; 59; 64; 1; 0];
  (* pcap/UPP RANAP.pcap frame 649 *)
  [0; 20; 64; 34; 0; 0; 2; 0; 16; 64; 22; 21; 8; 33; 67; 1; 128; 69; 1; 128; 70; 128; 71; 65; 48; 114; 65; 96; 113; 128; 73; 1; 0; 0; 59; 64; 1; 0];
  (* pcap/UPP RANAP.pcap frame 657 *)
  [0; 20; 64; 36; 0; 0; 2; 0; 16; 64; 24; 23; 5; 50; 67; 8; 128; 212; 170; 116; 57; 44; 50; 153; 71; 65; 48; 114; 65; 96; 113; 128; 73; 1; 0; 0; 59; 64; 1; 0];
  (* pcap/UPP RANAP.pcap frame 657 *)
  [0; 20; 64; 20; 0; 0; 2; 0; 16; 64; 8; 7; 5; 2; 130; 246; 16; 240; 60; 0; 59; 64; 1; 0];
  (* pcap/ranap/29eb1ef0-9805-012b-b2a6-0016cb8cea27.cap frame 3 *)
  [0; 19; 64; 67; 0; 0; 6; 0; 3; 64; 1; 0; 0; 15; 64; 6; 0; 100; 240; 144; 24; 7; 0; 58; 64; 8; 0; 100; 240; 144; 24; 7; 0; 1; 0; 16; 64; 17; 16; 5; 36; 113; 3; 0; 0; 0; 8; 73; 6; 144; 8; 64; 8; 135; 114; 0; 79; 64; 3; 1; 93; 244; 0; 86; 64; 5; 100; 240; 144; 7; 15];
  (* pcap/ranap/29eb1ef0-9805-012b-b2a6-0016cb8cea27.cap frame 4 *)
  [0; 15; 64; 16; 0; 0; 1; 0; 23; 64; 9; 80; 100; 0; 137; 0; 132; 112; 40; 247];
  (* pcap/ranap/29eb1ef0-9805-012b-b2a6-0016cb8cea27.cap frame 4 *)
  [0; 20; 64; 15; 0; 0; 2; 0; 16; 64; 3; 2; 5; 33; 0; 59; 64; 1; 0];
  (* pcap/ranap/29eb1ef0-9805-012b-b2a6-0016cb8cea27.cap frame 5 *)
  [0; 20; 64; 28; 0; 0; 1; 0; 16; 64; 21; 20; 3; 69; 4; 1; 160; 94; 7; 129; 49; 4; 8; 112; 41; 247; 64; 4; 4; 2; 96; 0];
  (* pcap/ranap/29eb1ef0-9805-012b-b2a6-0016cb8cea27.cap frame 7 *)
  [0; 20; 64; 15; 0; 0; 2; 0; 16; 64; 3; 2; 131; 2; 0; 59; 64; 1; 0];
  (* pcap/ranap/29eb1ef0-9805-012b-b2a6-0016cb8cea27.cap frame 9 *)
  [0; 20; 64; 18; 0; 0; 2; 0; 16; 64; 6; 5; 131; 37; 2; 226; 169; 0; 59; 64; 1; 0];
  (* pcap/ranap/29eb1ef0-9805-012b-b2a6-0016cb8cea27.cap frame 10 *)
  [0; 20; 64; 10; 0; 0; 1; 0; 16; 64; 3; 2; 3; 173];
  (* pcap/ranap/29eb1ef0-9805-012b-b2a6-0016cb8cea27.cap frame 11 *)
  [0; 20; 64; 15; 0; 0; 2; 0; 16; 64; 3; 2; 131; 42; 0; 59; 64; 1; 0];
  (* pcap/ranap/29eb1ef0-9805-012b-b2a6-0016cb8cea27.cap frame 13 *)
  [32; 1; 64; 3; 0; 0; 0];
  (* pcap/ranap/29eb1ef0-9805-012b-b2a6-0016cb8cea27.cap frame 19 *)
  [0; 19; 64; 67; 0; 0; 6; 0; 3; 64; 1; 0; 0; 15; 64; 6; 0; 100; 240; 144; 24; 7; 0; 58; 64; 8; 0; 100; 240; 144; 24; 7; 0; 1; 0; 16; 64; 17; 16; 5; 36; 113; 3; 0; 0; 0; 8; 73; 6; 144; 8; 64; 8; 135; 98; 0; 79; 64; 3; 1; 93; 245; 0; 86; 64; 5; 100; 240; 144; 7; 15];
  (* pcap/ranap/29eb1ef0-9805-012b-b2a6-0016cb8cea27.cap frame 20 *)
  [0; 15; 64; 16; 0; 0; 1; 0; 23; 64; 9; 80; 100; 0; 137; 0; 132; 112; 40; 246];
  (* pcap/ranap/29eb1ef0-9805-012b-b2a6-0016cb8cea27.cap frame 21 *)
  [0; 20; 64; 28; 0; 0; 1; 0; 16; 64; 21; 20; 3; 69; 4; 1; 160; 94; 7; 129; 49; 4; 8; 112; 41; 246; 64; 4; 4; 2; 96; 0];
  (* pcap/ranap/29eb1ef0-9805-012b-b2a6-0016cb8cea27.cap frame 40 *)
  [0; 19; 64; 67; 0; 0; 6; 0; 3; 64; 1; 0; 0; 15; 64; 6; 0; 100; 240; 144; 24; 7; 0; 58; 64; 8; 0; 100; 240; 144; 24; 7; 0; 1; 0; 16; 64; 17; 16; 5; 36; 113; 3; 0; 0; 0; 8; 73; 6; 144; 8; 64; 8; 135; 82; 0; 79; 64; 3; 1; 93; 246; 0; 86; 64; 5; 100; 240; 144; 7; 15];
  (* pcap/ranap/29eb1ef0-9805-012b-b2a6-0016cb8cea27.cap frame 41 *)
  [0; 15; 64; 16; 0; 0; 1; 0; 23; 64; 9; 80; 100; 0; 137; 0; 132; 112; 40; 245];
  (* pcap/ranap/29eb1ef0-9805-012b-b2a6-0016cb8cea27.cap frame 42 *)
  [0; 20; 64; 28; 0; 0; 1; 0; 16; 64; 21; 20; 3; 69; 4; 1; 160; 94; 7; 129; 49; 4; 8; 112; 41; 245; 64; 4; 4; 2; 96; 0];
  (* pcap/ranap/29eb1ef0-9805-012b-b2a6-0016cb8cea27.cap frame 56 *)
  [0; 19; 64; 67; 0; 0; 6; 0; 3; 64; 1; 0; 0; 15; 64; 6; 0; 100; 240; 144; 24; 7; 0; 58; 64; 8; 0; 100; 240; 144; 24; 7; 0; 1; 0; 16; 64; 17; 16; 5; 36; 113; 3; 0; 0; 0; 8; 73; 6; 144; 8; 64; 8; 135; 66; 0; 79; 64; 3; 1; 93; 247; 0; 86; 64; 5; 100; 240; 144; 7; 15];
  (* pcap/ranap/29eb1ef0-9805-012b-b2a6-0016cb8cea27.cap frame 57 *)
  [0; 15; 64; 16; 0; 0; 1; 0; 23; 64; 9; 80; 100; 0; 137; 0; 132; 112; 40; 244];
  (* pcap/ranap/29eb1ef0-9805-012b-b2a6-0016cb8cea27.cap frame 58 *)
  [0; 20; 64; 28; 0; 0; 1; 0; 16; 64; 21; 20; 3; 69; 4; 1; 160; 94; 7; 129; 49; 4; 8; 112; 41; 244; 64; 4; 4; 2; 96; 0];
  (* pcap/ranap/29eb1ef0-9805-012b-b2a6-0016cb8cea27.cap frame 72 *)
  [0; 19; 64; 67; 0; 0; 6; 0; 3; 64; 1; 0; 0; 15; 64; 6; 0; 100; 240; 144; 24; 7; 0; 58; 64; 8; 0; 100; 240; 144; 24; 7; 0; 1; 0; 16; 64; 17; 16; 5; 36; 113; 3; 0; 0; 0; 8; 73; 6; 144; 8; 64; 8; 135; 50; 0; 79; 64; 3; 1; 93; 248; 0; 86; 64; 5; 100; 240; 144; 7; 15];
  (* pcap/ranap/29eb1ef0-9805-012b-b2a6-0016cb8cea27.cap frame 73 *)
  [0; 15; 64; 16; 0; 0; 1; 0; 23; 64; 9; 80; 100; 0; 137; 0; 132; 112; 40; 243];
  (* pcap/ranap/29eb1ef0-9805-012b-b2a6-0016cb8cea27.cap frame 74 *)
  [0; 20; 64; 28; 0; 0; 1; 0; 16; 64; 21; 20; 3; 69; 4; 1; 160; 94; 7; 129; 49; 4; 8; 112; 41; 243; 64; 4; 4; 2; 96; 0];
  (* pcap/ranap/29eb1ef0-9805-012b-b2a6-0016cb8cea27.cap frame 88 *)
  [0; 19; 64; 67; 0; 0; 6; 0; 3; 64; 1; 0; 0; 15; 64; 6; 0; 100; 240; 144; 24; 7; 0; 58; 64; 8; 0; 100; 240; 144; 24; 7; 0; 1; 0; 16; 64; 17; 16; 5; 36; 113; 3; 0; 0; 0; 8; 73; 6; 144; 8; 64; 8; 135; 34; 0; 79; 64; 3; 1; 93; 249; 0; 86; 64; 5; 100; 240; 144; 7; 15];
  (* pcap/ranap/29eb1ef0-9805-012b-b2a6-0016cb8cea27.cap frame 89 *)
  [0; 15; 64; 16; 0; 0; 1; 0; 23; 64; 9; 80; 100; 0; 137; 0; 132; 112; 40; 242];
  (* pcap/ranap/29eb1ef0-9805-012b-b2a6-0016cb8cea27.cap frame 90 *)
  [0; 20; 64; 28; 0; 0; 1; 0; 16; 64; 21; 20; 3; 69; 4; 1; 160; 94; 7; 129; 49; 4; 8; 112; 41; 242; 64; 4; 4; 2; 96; 0];
  (* pcap/ranap/29eb1ef0-9805-012b-b2a6-0016cb8cea27.cap frame 104 *)
  [0; 19; 64; 67; 0; 0; 6; 0; 3; 64; 1; 0; 0; 15; 64; 6; 0; 100; 240; 144; 24; 7; 0; 58; 64; 8; 0; 100; 240; 144; 24; 7; 0; 1; 0; 16; 64; 17; 16; 5; 36; 113; 3; 0; 0; 0; 8; 73; 6; 144; 8; 64; 8; 135; 18; 0; 79; 64; 3; 1; 93; 250; 0; 86; 64; 5; 100; 240; 144; 7; 15];
  (* pcap/ranap/29eb1ef0-9805-012b-b2a6-0016cb8cea27.cap frame 105 *)
  [0; 15; 64; 16; 0; 0; 1; 0; 23; 64; 9; 80; 100; 0; 137; 0; 132; 112; 40; 241];
  (* pcap/ranap/29eb1ef0-9805-012b-b2a6-0016cb8cea27.cap frame 106 *)
  [0; 20; 64; 28; 0; 0; 1; 0; 16; 64; 21; 20; 3; 69; 4; 1; 160; 94; 7; 129; 49; 4; 8; 112; 41; 241; 64; 4; 4; 2; 96; 0];
  (* pcap/ranap/29eb1ef0-9805-012b-b2a6-0016cb8cea27.cap frame 120 *)
  [0; 19; 64; 67; 0; 0; 6; 0; 3; 64; 1; 0; 0; 15; 64; 6; 0; 100; 240; 144; 24; 7; 0; 58; 64; 8; 0; 100; 240; 144; 24; 7; 0; 1; 0; 16; 64; 17; 16; 5; 36; 113; 3; 0; 0; 0; 8; 73; 6; 144; 8; 64; 8; 135; 2; 0; 79; 64; 3; 1; 93; 251; 0; 86; 64; 5; 100; 240; 144; 7; 15];
  (* pcap/ranap/29eb1ef0-9805-012b-b2a6-0016cb8cea27.cap frame 121 *)
  [0; 15; 64; 16; 0; 0; 1; 0; 23; 64; 9; 80; 100; 0; 137; 0; 132; 112; 40; 240];
  (* pcap/ranap/29eb1ef0-9805-012b-b2a6-0016cb8cea27.cap frame 122 *)
  [0; 20; 64; 28; 0; 0; 1; 0; 16; 64; 21; 20; 3; 69; 4; 1; 160; 94; 7; 129; 49; 4; 8; 112; 41; 240; 64; 4; 4; 2; 96; 0];
  (* pcap/ranap/29eb1ef0-9805-012b-b2a6-0016cb8cea27.cap frame 136 *)
  [0; 19; 64; 67; 0; 0; 6; 0; 3; 64; 1; 0; 0; 15; 64; 6; 0; 100; 240; 144; 24; 7; 0; 58; 64; 8; 0; 100; 240; 144; 24; 7; 0; 1; 0; 16; 64; 17; 16; 5; 36; 113; 3; 0; 0; 0; 8; 73; 6; 144; 8; 64; 8; 135; 145; 0; 79; 64; 3; 1; 93; 252; 0; 86; 64; 5; 100; 240; 144; 7; 15];
  (* pcap/ranap/29eb1ef0-9805-012b-b2a6-0016cb8cea27.cap frame 137 *)
  [0; 15; 64; 16; 0; 0; 1; 0; 23; 64; 9; 80; 100; 0; 137; 0; 132; 112; 24; 249];
  (* pcap/ranap/29eb1ef0-9805-012b-b2a6-0016cb8cea27.cap frame 138 *)
  [0; 20; 64; 28; 0; 0; 1; 0; 16; 64; 21; 20; 3; 69; 4; 1; 160; 94; 7; 129; 49; 4; 8; 112; 25; 249; 64; 4; 4; 2; 96; 0];
  (* pcap/ranap/29eb1ef0-9805-012b-b2a6-0016cb8cea27.cap frame 152 *)
  [0; 19; 64; 67; 0; 0; 6; 0; 3; 64; 1; 0; 0; 15; 64; 6; 0; 100; 240; 144; 24; 7; 0; 58; 64; 8; 0; 100; 240; 144; 24; 7; 0; 1; 0; 16; 64; 17; 16; 5; 36; 113; 3; 0; 0; 0; 8; 73; 6; 144; 8; 64; 8; 135; 129; 0; 79; 64; 3; 1; 93; 253; 0; 86; 64; 5; 100; 240; 144; 7; 15];
  (* pcap/ranap/29eb1ef0-9805-012b-b2a6-0016cb8cea27.cap frame 153 *)
  [0; 15; 64; 16; 0; 0; 1; 0; 23; 64; 9; 80; 100; 0; 137; 0; 132; 112; 24; 248];
  (* pcap/ranap/29eb1ef0-9805-012b-b2a6-0016cb8cea27.cap frame 154 *)
  [0; 20; 64; 28; 0; 0; 1; 0; 16; 64; 21; 20; 3; 69; 4; 1; 160; 94; 7; 129; 49; 4; 8; 112; 25; 248; 64; 4; 4; 2; 96; 0];
  (* pcap/ranap/29eb1ef0-9805-012b-b2a6-0016cb8cea27.cap frame 168 *)
  [0; 19; 64; 67; 0; 0; 6; 0; 3; 64; 1; 0; 0; 15; 64; 6; 0; 100; 240; 144; 24; 7; 0; 58; 64; 8; 0; 100; 240; 144; 24; 7; 0; 1; 0; 16; 64; 17; 16; 5; 36; 113; 3; 0; 0; 0; 8; 73; 6; 144; 8; 64; 8; 135; 113; 0; 79; 64; 3; 1; 93; 254; 0; 86; 64; 5; 100; 240; 144; 7; 15];
  (* pcap/ranap/29eb1ef0-9805-012b-b2a6-0016cb8cea27.cap frame 169 *)
  [0; 15; 64; 16; 0; 0; 1; 0; 23; 64; 9; 80; 100; 0; 137; 0; 132; 112; 24; 247];
  (* pcap/ranap/29eb1ef0-9805-012b-b2a6-0016cb8cea27.cap frame 170 *)
  [0; 20; 64; 28; 0; 0; 1; 0; 16; 64; 21; 20; 3; 69; 4; 1; 160; 94; 7; 129; 49; 4; 8; 112; 25; 247; 64; 4; 4; 2; 96; 0];
  (* pcap/ranap/29eb1ef0-9805-012b-b2a6-0016cb8cea27.cap frame 184 *)
  [0; 19; 64; 67; 0; 0; 6; 0; 3; 64; 1; 0; 0; 15; 64; 6; 0; 100; 240; 144; 24; 7; 0; 58; 64; 8; 0; 100; 240; 144; 24; 7; 0; 1; 0; 16; 64; 17; 16; 5; 36; 113; 3; 0; 0; 0; 8; 73; 6; 144; 8; 64; 8; 135; 97; 0; 79; 64; 3; 1; 93; 255; 0; 86; 64; 5; 100; 240; 144; 7; 15];
  (* pcap/ranap/29eb1ef0-9805-012b-b2a6-0016cb8cea27.cap frame 185 *)
  [0; 15; 64; 16; 0; 0; 1; 0; 23; 64; 9; 80; 100; 0; 137; 0; 132; 112; 24; 246];
  (* pcap/ranap/29eb1ef0-9805-012b-b2a6-0016cb8cea27.cap frame 186 *)
  [0; 20; 64; 28; 0; 0; 1; 0; 16; 64; 21; 20; 3; 69; 4; 1; 160; 94; 7; 129; 49; 4; 8; 112; 25; 246; 64; 4; 4; 2; 96; 0];
  (* pcap/ranap/29eb1ef0-9805-012b-b2a6-0016cb8cea27.cap frame 203 *)
  [0; 19; 64; 67; 0; 0; 6; 0; 3; 64; 1; 0; 0; 15; 64; 6; 0; 100; 240; 144; 24; 7; 0; 58; 64; 8; 0; 100; 240; 144; 24; 7; 0; 1; 0; 16; 64; 17; 16; 5; 36; 113; 3; 0; 0; 0; 8; 73; 6; 144; 8; 64; 8; 135; 81; 0; 79; 64; 3; 1; 94; 0; 0; 86; 64; 5; 100; 240; 144; 7; 15];
  (* pcap/ranap/29eb1ef0-9805-012b-b2a6-0016cb8cea27.cap frame 204 *)
  [0; 15; 64; 16; 0; 0; 1; 0; 23; 64; 9; 80; 100; 0; 137; 0; 132; 112; 24; 245];
  (* pcap/ranap/29eb1ef0-9805-012b-b2a6-0016cb8cea27.cap frame 205 *)
  [0; 20; 64; 28; 0; 0; 1; 0; 16; 64; 21; 20; 3; 69; 4; 1; 160; 94; 7; 129; 49; 4; 8; 112; 25; 245; 64; 4; 4; 2; 96; 0];
  (* pcap/ranap/29eb1ef0-9805-012b-b2a6-0016cb8cea27.cap frame 219 *)
  [0; 19; 64; 67; 0; 0; 6; 0; 3; 64; 1; 0; 0; 15; 64; 6; 0; 100; 240; 144; 24; 7; 0; 58; 64; 8; 0; 100; 240; 144; 24; 7; 0; 1; 0; 16; 64; 17; 16; 5; 36; 113; 3; 0; 0; 0; 8; 73; 6; 144; 8; 64; 8; 135; 65; 0; 79; 64; 3; 1; 94; 1; 0; 86; 64; 5; 100; 240; 144; 7; 15];
  (* pcap/ranap/29eb1ef0-9805-012b-b2a6-0016cb8cea27.cap frame 220 *)
  [0; 15; 64; 16; 0; 0; 1; 0; 23; 64; 9; 80; 100; 0; 137; 0; 132; 112; 24; 244];
  (* pcap/ranap/29eb1ef0-9805-012b-b2a6-0016cb8cea27.cap frame 221 *)
  [0; 20; 64; 28; 0; 0; 1; 0; 16; 64; 21; 20; 3; 69; 4; 1; 160; 94; 7; 129; 49; 4; 8; 112; 25; 244; 64; 4; 4; 2; 96; 0];
  (* pcap/ranap/29eb1ef0-9805-012b-b2a6-0016cb8cea27.cap frame 235 *)
  [0; 19; 64; 67; 0; 0; 6; 0; 3; 64; 1; 0; 0; 15; 64; 6; 0; 100; 240; 144; 24; 7; 0; 58; 64; 8; 0; 100; 240; 144; 24; 7; 0; 1; 0; 16; 64; 17; 16; 5; 36; 113; 3; 0; 0; 0; 8; 73; 6; 144; 8; 64; 8; 135; 49; 0; 79; 64; 3; 1; 94; 2; 0; 86; 64; 5; 100; 240; 144; 7; 15];
  (* pcap/ranap/29eb1ef0-9805-012b-b2a6-0016cb8cea27.cap frame 236 *)
  [0; 15; 64; 16; 0; 0; 1; 0; 23; 64; 9; 80; 100; 0; 137; 0; 132; 112; 24; 243];
  (* pcap/ranap/29eb1ef0-9805-012b-b2a6-0016cb8cea27.cap frame 237 *)
  [0; 20; 64; 28; 0; 0; 1; 0; 16; 64; 21; 20; 3; 69; 4; 1; 160; 94; 7; 129; 49; 4; 8; 112; 25; 243; 64; 4; 4; 2; 96; 0];
  (* pcap/ranap/29eb1ef0-9805-012b-b2a6-0016cb8cea27.cap frame 251 *)
  [0; 19; 64; 67; 0; 0; 6; 0; 3; 64; 1; 0; 0; 15; 64; 6; 0; 100; 240; 144; 24; 7; 0; 58; 64; 8; 0; 100; 240; 144; 24; 7; 0; 1; 0; 16; 64; 17; 16; 5; 36; 113; 3; 0; 0; 0; 8; 73; 6; 144; 8; 64; 8; 135; 33; 0; 79; 64; 3; 1; 94; 3; 0; 86; 64; 5; 100; 240; 144; 7; 15];
  (* pcap/ranap/29eb1ef0-9805-012b-b2a6-0016cb8cea27.cap frame 252 *)
  [0; 15; 64; 16; 0; 0; 1; 0; 23; 64; 9; 80; 100; 0; 137; 0; 132; 112; 24; 242];
  (* pcap/ranap/29eb1ef0-9805-012b-b2a6-0016cb8cea27.cap frame 253 *)
  [0; 20; 64; 28; 0; 0; 1; 0; 16; 64; 21; 20; 3; 69; 4; 1; 160; 94; 7; 129; 49; 4; 8; 112; 25; 242; 64; 4; 4; 2; 96; 0];
  (* pcap/ranap/29eb1ef0-9805-012b-b2a6-0016cb8cea27.cap frame 267 *)
  [0; 19; 64; 67; 0; 0; 6; 0; 3; 64; 1; 0; 0; 15; 64; 6; 0; 100; 240; 144; 24; 7; 0; 58; 64; 8; 0; 100; 240; 144; 24; 7; 0; 1; 0; 16; 64; 17; 16; 5; 36; 113; 3; 0; 0; 0; 8; 73; 6; 144; 8; 64; 8; 135; 17; 0; 79; 64; 3; 1; 94; 4; 0; 86; 64; 5; 100; 240; 144; 7; 15];
  (* pcap/ranap/29eb1ef0-9805-012b-b2a6-0016cb8cea27.cap frame 268 *)
  [0; 15; 64; 16; 0; 0; 1; 0; 23; 64; 9; 80; 100; 0; 137; 0; 132; 112; 24; 241];
  (* pcap/ranap/29eb1ef0-9805-012b-b2a6-0016cb8cea27.cap frame 269 *)
  [0; 20; 64; 28; 0; 0; 1; 0; 16; 64; 21; 20; 3; 69; 4; 1; 160; 94; 7; 129; 49; 4; 8; 112; 25; 241; 64; 4; 4; 2; 96; 0];
  (* pcap/ranap/29eb1ef0-9805-012b-b2a6-0016cb8cea27.cap frame 285 *)
  [0; 19; 64; 67; 0; 0; 6; 0; 3; 64; 1; 0; 0; 15; 64; 6; 0; 100; 240; 144; 24; 7; 0; 58; 64; 8; 0; 100; 240; 144; 24; 7; 0; 1; 0; 16; 64; 17; 16; 5; 36; 113; 3; 0; 0; 0; 8; 73; 6; 144; 8; 64; 8; 135; 1; 0; 79; 64; 3; 1; 94; 5; 0; 86; 64; 5; 100; 240; 144; 7; 15];
  (* pcap/ranap/29eb1ef0-9805-012b-b2a6-0016cb8cea27.cap frame 286 *)
  [0; 15; 64; 16; 0; 0; 1; 0; 23; 64; 9; 80; 100; 0; 137; 0; 132; 112; 24; 240];
  (* pcap/ranap/29eb1ef0-9805-012b-b2a6-0016cb8cea27.cap frame 287 *)
  [0; 20; 64; 28; 0; 0; 1; 0; 16; 64; 21; 20; 3; 69; 4; 1; 160; 94; 7; 129; 49; 4; 8; 112; 25; 240; 64; 4; 4; 2; 96; 0];
  (* pcap/ranap/29eb1ef0-9805-012b-b2a6-0016cb8cea27.cap frame 301 *)
  [0; 19; 64; 67; 0; 0; 6; 0; 3; 64; 1; 0; 0; 15; 64; 6; 0; 100; 240; 144; 24; 7; 0; 58; 64; 8; 0; 100; 240; 144; 24; 7; 0; 1; 0; 16; 64; 17; 16; 5; 36; 113; 3; 0; 0; 0; 8; 73; 6; 144; 8; 64; 8; 135; 144; 0; 79; 64; 3; 1; 94; 6; 0; 86; 64; 5; 100; 240; 144; 7; 15];
  (* pcap/ranap/29eb1ef0-9805-012b-b2a6-0016cb8cea27.cap frame 302 *)
  [0; 15; 64; 16; 0; 0; 1; 0; 23; 64; 9; 80; 100; 0; 137; 0; 132; 112; 8; 249];
  (* pcap/ranap/29eb1ef0-9805-012b-b2a6-0016cb8cea27.cap frame 303 *)
  [0; 20; 64; 28; 0; 0; 1; 0; 16; 64; 21; 20; 3; 69; 4; 1; 160; 94; 7; 129; 49; 4; 8; 112; 9; 249; 64; 4; 4; 2; 96; 0];
  (* pcap/ranap/29eb1ef0-9805-012b-b2a6-0016cb8cea27.cap frame 317 *)
  [0; 19; 64; 67; 0; 0; 6; 0; 3; 64; 1; 0; 0; 15; 64; 6; 0; 100; 240; 144; 24; 7; 0; 58; 64; 8; 0; 100; 240; 144; 24; 7; 0; 1; 0; 16; 64; 17; 16; 5; 36; 113; 3; 0; 0; 0; 8; 73; 6; 144; 8; 64; 8; 135; 128; 0; 79; 64; 3; 1; 94; 7; 0; 86; 64; 5; 100; 240; 144; 7; 15];
  (* pcap/ranap/29eb1ef0-9805-012b-b2a6-0016cb8cea27.cap frame 318 *)
  [0; 15; 64; 16; 0; 0; 1; 0; 23; 64; 9; 80; 100; 0; 137; 0; 132; 112; 8; 248];
  (* pcap/ranap/29eb1ef0-9805-012b-b2a6-0016cb8cea27.cap frame 319 *)
  [0; 20; 64; 28; 0; 0; 1; 0; 16; 64; 21; 20; 3; 69; 4; 1; 160; 94; 7; 129; 49; 4; 8; 112; 9; 248; 64; 4; 4; 2; 96; 0];
  (* pcap/ranap/29eb1ef0-9805-012b-b2a6-0016cb8cea27.cap frame 323 *)
  [0; 19; 64; 67; 0; 0; 6; 0; 3; 64; 1; 0; 0; 15; 64; 6; 0; 100; 240; 144; 24; 7; 0; 58; 64; 8; 0; 100; 240; 144; 24; 7; 0; 1; 0; 16; 64; 17; 16; 5; 36; 113; 3; 0; 0; 0; 8; 73; 6; 144; 8; 64; 8; 135; 112; 0; 79; 64; 3; 1; 94; 8; 0; 86; 64; 5; 100; 240; 144; 7; 15];
  (* pcap/ranap/29eb1ef0-9805-012b-b2a6-0016cb8cea27.cap frame 324 *)
  [0; 15; 64; 16; 0; 0; 1; 0; 23; 64; 9; 80; 100; 0; 137; 0; 132; 112; 8; 247];
  (* pcap/ranap/29eb1ef0-9805-012b-b2a6-0016cb8cea27.cap frame 325 *)
  [0; 20; 64; 28; 0; 0; 1; 0; 16; 64; 21; 20; 3; 69; 4; 1; 160; 94; 7; 129; 49; 4; 8; 112; 9; 247; 64; 4; 4; 2; 96; 0];
  (* pcap/ranap/29eb1ef0-9805-012b-b2a6-0016cb8cea27.cap frame 340 *)
  [0; 19; 64; 67; 0; 0; 6; 0; 3; 64; 1; 0; 0; 15; 64; 6; 0; 100; 240; 144; 24; 7; 0; 58; 64; 8; 0; 100; 240; 144; 24; 7; 0; 1; 0; 16; 64; 17; 16; 5; 36; 113; 3; 0; 0; 0; 8; 73; 6; 144; 8; 64; 8; 135; 96; 0; 79; 64; 3; 1; 94; 9; 0; 86; 64; 5; 100; 240; 144; 7; 15];
  (* pcap/ranap/29eb1ef0-9805-012b-b2a6-0016cb8cea27.cap frame 341 *)
  [0; 15; 64; 16; 0; 0; 1; 0; 23; 64; 9; 80; 100; 0; 137; 0; 132; 112; 8; 246];
  (* pcap/ranap/29eb1ef0-9805-012b-b2a6-0016cb8cea27.cap frame 342 *)
  [0; 20; 64; 28; 0; 0; 1; 0; 16; 64; 21; 20; 3; 69; 4; 1; 160; 94; 7; 129; 49; 4; 8; 112; 9; 246; 64; 4; 4; 2; 96; 0];
  (* pcap/ranap/29eb1ef0-9805-012b-b2a6-0016cb8cea27.cap frame 356 *)
  [0; 19; 64; 67; 0; 0; 6; 0; 3; 64; 1; 0; 0; 15; 64; 6; 0; 100; 240; 144; 24; 7; 0; 58; 64; 8; 0; 100; 240; 144; 24; 7; 0; 1; 0; 16; 64; 17; 16; 5; 36; 113; 3; 0; 0; 0; 8; 73; 6; 144; 8; 64; 8; 135; 80; 0; 79; 64; 3; 1; 94; 10; 0; 86; 64; 5; 100; 240; 144; 7; 15];
  (* pcap/ranap/29eb1ef0-9805-012b-b2a6-0016cb8cea27.cap frame 357 *)
  [0; 15; 64; 16; 0; 0; 1; 0; 23; 64; 9; 80; 100; 0; 137; 0; 132; 112; 8; 245];
  (* pcap/ranap/29eb1ef0-9805-012b-b2a6-0016cb8cea27.cap frame 358 *)
  [0; 20; 64; 28; 0; 0; 1; 0; 16; 64; 21; 20; 3; 69; 4; 1; 160; 94; 7; 129; 49; 4; 8; 112; 9; 245; 64; 4; 4; 2; 96; 0];
  (* pcap/ranap/29eb1ef0-9805-012b-b2a6-0016cb8cea27.cap frame 372 *)
  [0; 19; 64; 67; 0; 0; 6; 0; 3; 64; 1; 0; 0; 15; 64; 6; 0; 100; 240; 144; 24; 7; 0; 58; 64; 8; 0; 100; 240; 144; 24; 7; 0; 1; 0; 16; 64; 17; 16; 5; 36; 113; 3; 0; 0; 0; 8; 73; 6; 144; 8; 64; 8; 135; 64; 0; 79; 64; 3; 1; 94; 11; 0; 86; 64; 5; 100; 240; 144; 7; 15];
  (* pcap/ranap/29eb1ef0-9805-012b-b2a6-0016cb8cea27.cap frame 373 *)
  [0; 15; 64; 16; 0; 0; 1; 0; 23; 64; 9; 80; 100; 0; 137; 0; 132; 112; 8; 244];
  (* pcap/ranap/29eb1ef0-9805-012b-b2a6-0016cb8cea27.cap frame 374 *)
  [0; 20; 64; 28; 0; 0; 1; 0; 16; 64; 21; 20; 3; 69; 4; 1; 160; 94; 7; 129; 49; 4; 8; 112; 9; 244; 64; 4; 4; 2; 96; 0];
  (* pcap/ranap/29eb1ef0-9805-012b-b2a6-0016cb8cea27.cap frame 388 *)
  [0; 19; 64; 67; 0; 0; 6; 0; 3; 64; 1; 0; 0; 15; 64; 6; 0; 100; 240; 144; 24; 7; 0; 58; 64; 8; 0; 100; 240; 144; 24; 7; 0; 1; 0; 16; 64; 17; 16; 5; 36; 113; 3; 0; 0; 0; 8; 73; 6; 144; 8; 64; 8; 135; 48; 0; 79; 64; 3; 1; 94; 12; 0; 86; 64; 5; 100; 240; 144; 7; 15];
  (* pcap/ranap/29eb1ef0-9805-012b-b2a6-0016cb8cea27.cap frame 389 *)
  [0; 15; 64; 16; 0; 0; 1; 0; 23; 64; 9; 80; 100; 0; 137; 0; 132; 112; 8; 243];
  (* pcap/ranap/29eb1ef0-9805-012b-b2a6-0016cb8cea27.cap frame 390 *)
  [0; 20; 64; 28; 0; 0; 1; 0; 16; 64; 21; 20; 3; 69; 4; 1; 160; 94; 7; 129; 49; 4; 8; 112; 9; 243; 64; 4; 4; 2; 96; 0];
  (* pcap/ranap/29eb1ef0-9805-012b-b2a6-0016cb8cea27.cap frame 404 *)
  [0; 19; 64; 67; 0; 0; 6; 0; 3; 64; 1; 0; 0; 15; 64; 6; 0; 100; 240; 144; 24; 7; 0; 58; 64; 8; 0; 100; 240; 144; 24; 7; 0; 1; 0; 16; 64; 17; 16; 5; 36; 113; 3; 0; 0; 0; 8; 73; 6; 144; 8; 64; 8; 135; 32; 0; 79; 64; 3; 1; 94; 13; 0; 86; 64; 5; 100; 240; 144; 7; 15];
  (* pcap/ranap/29eb1ef0-9805-012b-b2a6-0016cb8cea27.cap frame 405 *)
  [0; 15; 64; 16; 0; 0; 1; 0; 23; 64; 9; 80; 100; 0; 137; 0; 132; 112; 8; 242];
  (* pcap/ranap/29eb1ef0-9805-012b-b2a6-0016cb8cea27.cap frame 406 *)
  [0; 20; 64; 28; 0; 0; 1; 0; 16; 64; 21; 20; 3; 69; 4; 1; 160; 94; 7; 129; 49; 4; 8; 112; 9; 242; 64; 4; 4; 2; 96; 0];
  (* pcap/ranap/29eb1ef0-9805-012b-b2a6-0016cb8cea27.cap frame 420 *)
  [0; 19; 64; 67; 0; 0; 6; 0; 3; 64; 1; 0; 0; 15; 64; 6; 0; 100; 240; 144; 24; 7; 0; 58; 64; 8; 0; 100; 240; 144; 24; 7; 0; 1; 0; 16; 64; 17; 16; 5; 36; 113; 3; 0; 0; 0; 8; 73; 6; 144; 8; 64; 8; 135; 16; 0; 79; 64; 3; 1; 94; 14; 0; 86; 64; 5; 100; 240; 144; 7; 15];
  (* pcap/ranap/29eb1ef0-9805-012b-b2a6-0016cb8cea27.cap frame 421 *)
  [0; 15; 64; 16; 0; 0; 1; 0; 23; 64; 9; 80; 100; 0; 137; 0; 132; 112; 8; 241];
  (* pcap/ranap/29eb1ef0-9805-012b-b2a6-0016cb8cea27.cap frame 422 *)
  [0; 20; 64; 28; 0; 0; 1; 0; 16; 64; 21; 20; 3; 69; 4; 1; 160; 94; 7; 129; 49; 4; 8; 112; 9; 241; 64; 4; 4; 2; 96; 0];
  (* pcap/ranap/29eb1ef0-9805-012b-b2a6-0016cb8cea27.cap frame 436 *)
  [0; 19; 64; 67; 0; 0; 6; 0; 3; 64; 1; 0; 0; 15; 64; 6; 0; 100; 240; 144; 24; 7; 0; 58; 64; 8; 0; 100; 240; 144; 24; 7; 0; 1; 0; 16; 64; 17; 16; 5; 36; 113; 3; 0; 0; 0; 8; 73; 6; 144; 8; 64; 8; 135; 0; 0; 79; 64; 3; 1; 94; 15; 0; 86; 64; 5; 100; 240; 144; 7; 15];
  (* pcap/ranap/29eb1ef0-9805-012b-b2a6-0016cb8cea27.cap frame 437 *)
  [0; 15; 64; 16; 0; 0; 1; 0; 23; 64; 9; 80; 100; 0; 137; 0; 132; 112; 8; 240];
  (* pcap/ranap/29eb1ef0-9805-012b-b2a6-0016cb8cea27.cap frame 438 *)
  [0; 20; 64; 28; 0; 0; 1; 0; 16; 64; 21; 20; 3; 69; 4; 1; 160; 94; 7; 129; 49; 4; 8; 112; 9; 240; 64; 4; 4; 2; 96; 0];
  (* pcap/ranap/29eb1ef0-9805-012b-b2a6-0016cb8cea27.cap frame 452 *)
  [0; 19; 64; 67; 0; 0; 6; 0; 3; 64; 1; 0; 0; 15; 64; 6; 0; 100; 240; 144; 24; 7; 0; 58; 64; 8; 0; 100; 240; 144; 24; 7; 0; 1; 0; 16; 64; 17; 16; 5; 36; 113; 3; 0; 0; 0; 8; 73; 6; 144; 8; 64; 8; 135; 153; 0; 79; 64; 3; 1; 94; 16; 0; 86; 64; 5; 100; 240; 144; 7; 15];
  (* pcap/ranap/29eb1ef0-9805-012b-b2a6-0016cb8cea27.cap frame 453 *)
  [0; 15; 64; 16; 0; 0; 1; 0; 23; 64; 9; 80; 100; 0; 137; 0; 132; 112; 152; 249];
  (* pcap/ranap/29eb1ef0-9805-012b-b2a6-0016cb8cea27.cap frame 454 *)
  [0; 20; 64; 28; 0; 0; 1; 0; 16; 64; 21; 20; 3; 69; 4; 1; 160; 94; 7; 129; 49; 4; 8; 112; 153; 249; 64; 4; 4; 2; 96; 0];
  (* pcap/ranap/29eb1ef0-9805-012b-b2a6-0016cb8cea27.cap frame 468 *)
  [0; 19; 64; 67; 0; 0; 6; 0; 3; 64; 1; 0; 0; 15; 64; 6; 0; 100; 240; 144; 24; 7; 0; 58; 64; 8; 0; 100; 240; 144; 24; 7; 0; 1; 0; 16; 64; 17; 16; 5; 36; 113; 3; 0; 0; 0; 8; 73; 6; 144; 8; 64; 8; 135; 137; 0; 79; 64; 3; 1; 94; 17; 0; 86; 64; 5; 100; 240; 144; 7; 15];
  (* pcap/ranap/29eb1ef0-9805-012b-b2a6-0016cb8cea27.cap frame 469 *)
  [0; 15; 64; 16; 0; 0; 1; 0; 23; 64; 9; 80; 100; 0; 137; 0; 132; 112; 152; 248];
  (* pcap/ranap/29eb1ef0-9805-012b-b2a6-0016cb8cea27.cap frame 470 *)
  [0; 20; 64; 28; 0; 0; 1; 0; 16; 64; 21; 20; 3; 69; 4; 1; 160; 94; 7; 129; 49; 4; 8; 112; 153; 248; 64; 4; 4; 2; 96; 0];
  (* pcap/ranap/29eb1ef0-9805-012b-b2a6-0016cb8cea27.cap frame 484 *)
  [0; 19; 64; 67; 0; 0; 6; 0; 3; 64; 1; 0; 0; 15; 64; 6; 0; 100; 240; 144; 24; 7; 0; 58; 64; 8; 0; 100; 240; 144; 24; 7; 0; 1; 0; 16; 64; 17; 16; 5; 36; 113; 3; 0; 0; 0; 8; 73; 6; 144; 8; 64; 8; 135; 121; 0; 79; 64; 3; 1; 94; 18; 0; 86; 64; 5; 100; 240; 144; 7; 15];
  (* pcap/ranap/3GDT_example.pcap frame 1 *)
  [0; 20; 64; 104; 0; 0; 4; 0; 16; 64; 70; 69; 10; 65; 5; 3; 14; 0; 0; 0; 0; 0; 0; 0; 0; 0; 0; 0; 0; 0; 0; 2; 1; 33; 40; 10; 3; 101; 109; 98; 2; 110; 101; 2; 106; 112; 39; 33; 128; 192; 35; 10; 1; 0; 0; 10; 2; 101; 109; 2; 101; 109; 128; 33; 16; 1; 0; 0; 16; 129; 6; 0; 0; 0; 0; 131; 6; 0; 0; 0; 0; 0; 15; 64; 6; 0; 68; 240; 0; 0; 219; 0; 55; 64; 1; 23; 0; 58; 64; 8; 0; 68; 240; 0; 0; 219; 0; 1];
  (* pcap/ranap/3GDT_example.pcap frame 4 *)
  [0; 0; 0; 74; 0; 0; 1; 0; 54; 64; 67; 0; 0; 1; 0; 53; 0; 44; 60; 10; 22; 222; 244; 35; 255; 128; 122; 17; 255; 128; 31; 64; 8; 6; 8; 130; 16; 0; 0; 0; 177; 0; 5; 96; 1; 140; 186; 127; 0; 0; 16; 62; 172; 17; 5; 50; 0; 92; 0; 19; 21; 32; 64; 14; 121; 28; 0; 0; 0; 0; 0; 0; 0; 89; 64; 2; 64; 0];
  (* pcap/ranap/3GDT_example.pcap frame 5 *)
  [96; 0; 0; 26; 0; 0; 1; 0; 52; 64; 19; 0; 0; 1; 0; 51; 64; 12; 96; 40; 124; 10; 36; 90; 6; 0; 0; 0; 0; 103];
  (* pcap/ranap/3GDT_example.pcap frame 8 *)
  [0; 20; 64; 69; 0; 0; 2; 0; 16; 64; 57; 56; 138; 66; 3; 14; 35; 145; 31; 147; 100; 244; 254; 116; 131; 16; 64; 0; 100; 0; 4; 43; 6; 1; 33; 10; 23; 192; 2; 39; 27; 128; 128; 33; 10; 4; 0; 0; 10; 131; 6; 0; 0; 0; 0; 128; 33; 10; 3; 0; 0; 10; 129; 6; 172; 17; 100; 177; 0; 59; 64; 1; 0];
  (* pcap/ranap/IuPS_PS_call_flow.pcap frame 1 *)
  [0; 19; 64; 69; 0; 0; 7; 0; 3; 64; 1; 128; 0; 15; 64; 6; 0; 82; 248; 21; 0; 200; 0; 55; 64; 1; 10; 0; 58; 64; 8; 0; 82; 248; 21; 0; 200; 0; 1; 0; 16; 64; 14; 13; 8; 12; 5; 5; 244; 232; 6; 247; 243; 50; 2; 0; 0; 0; 79; 64; 3; 3; 79; 0; 0; 86; 64; 5; 82; 248; 21; 0; 12];
  (* pcap/ranap/IuPS_PS_call_flow.pcap frame 2 *)
  [0; 6; 0; 52; 0; 0; 3; 0; 12; 0; 18; 0; 0; 197; 28; 97; 102; 115; 59; 114; 37; 184; 57; 4; 242; 234; 198; 72; 192; 0; 11; 64; 18; 8; 128; 192; 197; 28; 97; 102; 115; 59; 114; 37; 184; 57; 4; 242; 234; 198; 72; 0; 75; 0; 1; 0];
  (* pcap/ranap/IuPS_PS_call_flow.pcap frame 4 *)
  [0; 15; 64; 16; 0; 0; 1; 0; 23; 64; 9; 80; 82; 88; 97; 4; 0; 0; 8; 242];
  (* pcap/ranap/IuPS_PS_call_flow.pcap frame 5 *)
  [0; 20; 64; 128; 159; 0; 0; 4; 0; 16; 64; 125; 124; 10; 65; 5; 3; 11; 8; 1; 0; 128; 0; 0; 0; 0; 0; 0; 0; 2; 1; 33; 40; 7; 6; 51; 103; 108; 105; 118; 101; 39; 94; 128; 194; 35; 35; 1; 1; 0; 35; 16; 218; 222; 205; 84; 180; 229; 225; 151; 82; 218; 175; 111; 198; 118; 38; 130; 85; 77; 84; 83; 95; 67; 72; 65; 80; 95; 83; 82; 86; 82; 194; 35; 21; 2; 1; 0; 21; 16; 176; 198; 17; 175; 233; 146; 156; 163; 47; 203; 163; 174; 134; 229; 135; 222; 128; 33; 28; 1; 0; 0; 28; 129; 6; 0; 0; 0; 0; 130; 6; 0; 0; 0; 0; 131; 6; 0; 0; 0; 0; 132; 6; 0; 0; 0; 0; 0; 15; 64; 6; 0; 82; 248; 21; 0; 200; 0; 55; 64; 1; 10; 0; 58; 64; 8; 0; 82; 248; 21; 0; 200; 0; 1];
  (* pcap/ranap/IuPS_PS_call_flow.pcap frame 6 *)
  [0; 0; 0; 64; 0; 0; 1; 0; 54; 64; 57; 0; 0; 1; 0; 53; 0; 31; 56; 10; 20; 222; 5; 219; 255; 64; 249; 255; 128; 46; 224; 8; 10; 94; 3; 80; 0; 1; 3; 224; 172; 23; 4; 47; 0; 1; 0; 12; 44; 64; 17; 97; 28; 0; 0; 0; 89; 64; 9; 37; 6; 31; 64; 0; 128; 31; 64; 0];
  (* pcap/ranap/IuPS_PS_call_flow.pcap frame 7 *)
  [96; 0; 0; 26; 0; 0; 1; 0; 52; 64; 19; 0; 0; 1; 0; 51; 64; 12; 96; 40; 124; 172; 253; 7; 70; 0; 0; 0; 2; 169];
  (* pcap/ranap/IuPS_PS_call_flow.pcap frame 8 *)
  [0; 20; 64; 71; 0; 0; 2; 0; 16; 64; 59; 58; 138; 66; 3; 11; 34; 97; 31; 146; 150; 64; 104; 150; 249; 255; 255; 4; 43; 6; 1; 33; 192; 168; 129; 222; 39; 32; 128; 128; 33; 28; 2; 0; 0; 28; 129; 6; 172; 24; 25; 130; 130; 6; 0; 0; 0; 0; 131; 6; 0; 0; 0; 0; 132; 6; 0; 0; 0; 0; 0; 59; 64; 1; 0];
  (* pcap/ranap/IuPS_PS_call_flow.pcap frame 9 *)
  [0; 20; 64; 39; 0; 0; 4; 0; 16; 64; 5; 4; 10; 70; 36; 145; 0; 15; 64; 6; 0; 82; 248; 21; 0; 200; 0; 55; 64; 1; 10; 0; 58; 64; 8; 0; 82; 248; 21; 0; 200; 0; 1];
  (* pcap/ranap/IuPS_PS_call_flow.pcap frame 10 *)
  [0; 20; 64; 15; 0; 0; 2; 0; 16; 64; 3; 2; 138; 71; 0; 59; 64; 1; 0];
  (* pcap/ranap/IuPS_PS_call_flow.pcap frame 10 *)
  [0; 0; 0; 17; 0; 0; 1; 0; 41; 64; 10; 0; 0; 1; 0; 40; 64; 3; 1; 72; 128];
  (* pcap/ranap/IuPS_PS_call_flow.pcap frame 11 *)
  [96; 0; 0; 24; 0; 0; 2; 0; 39; 64; 10; 0; 0; 1; 0; 34; 64; 3; 1; 80; 128; 0; 9; 64; 3; 96; 31; 192];
  (* pcap/ranap/IuPS_PS_call_flow.pcap frame 12 *)
  [0; 11; 64; 8; 0; 0; 1; 0; 4; 64; 1; 66];
  (* pcap/ranap/MobileOriginatingCall_AMR.cap frame 2 *)
  [0; 19; 64; 68; 0; 0; 6; 0; 3; 64; 1; 0; 0; 15; 64; 6; 0; 98; 241; 16; 64; 1; 0; 58; 64; 8; 0; 98; 241; 16; 64; 1; 129; 149; 0; 16; 64; 18; 17; 5; 36; 1; 3; 64; 16; 0; 8; 25; 50; 84; 118; 8; 0; 0; 0; 129; 0; 79; 64; 3; 32; 6; 3; 0; 86; 64; 5; 98; 241; 16; 0; 1];
  (* pcap/ranap/MobileOriginatingCall_AMR.cap frame 6 *)
  [0; 15; 64; 16; 0; 0; 1; 0; 23; 64; 9; 80; 33; 67; 101; 135; 0; 0; 0; 240];
  (* pcap/ranap/MobileOriginatingCall_AMR.cap frame 10 *)
  [0; 20; 64; 26; 0; 0; 1; 0; 16; 64; 19; 18; 3; 69; 4; 1; 160; 94; 2; 129; 245; 64; 7; 4; 5; 4; 4; 1; 6; 255];
  (* pcap/ranap/MobileOriginatingCall_AMR.cap frame 14 *)
  [0; 0; 0; 128; 171; 0; 0; 1; 0; 54; 64; 128; 163; 0; 0; 1; 0; 53; 0; 128; 143; 56; 2; 216; 1; 47; 167; 32; 47; 168; 0; 0; 244; 76; 100; 6; 18; 128; 0; 81; 64; 0; 65; 64; 0; 75; 64; 0; 61; 64; 0; 58; 64; 0; 55; 64; 0; 49; 64; 0; 42; 64; 0; 39; 64; 0; 0; 32; 40; 148; 0; 103; 64; 0; 99; 64; 0; 84; 64; 0; 87; 64; 0; 76; 64; 0; 63; 64; 0; 54; 64; 0; 53; 64; 0; 0; 64; 0; 0; 32; 40; 148; 0; 60; 64; 0; 40; 64; 0; 0; 64; 0; 0; 64; 0; 0; 64; 0; 0; 64; 0; 0; 64; 0; 0; 64; 0; 0; 64; 0; 0; 0; 100; 60; 2; 0; 2; 39; 192; 53; 0; 1; 50; 2; 1; 0; 0; 0; 0; 0; 0; 0; 0; 0; 0; 0; 0; 0; 0; 64; 195; 80; 0; 0; 64; 10; 65; 24; 0; 0; 0; 89; 64; 2; 64; 0];
  (* pcap/ranap/MobileOriginatingCall_AMR.cap frame 27 *)
  [96; 0; 0; 54; 0; 0; 1; 0; 52; 64; 47; 0; 0; 1; 0; 51; 64; 40; 104; 10; 124; 53; 0; 1; 50; 3; 1; 0; 0; 0; 0; 0; 0; 0; 0; 0; 0; 0; 0; 0; 0; 64; 156; 64; 0; 0; 0; 0; 0; 90; 64; 6; 98; 47; 167; 32; 47; 168];
  (* pcap/ranap/MobileOriginatingCall_AMR.cap frame 33 *)
  [0; 20; 64; 15; 0; 0; 2; 0; 16; 64; 3; 2; 131; 1; 0; 59; 64; 1; 0];
  (* pcap/ranap/MobileOriginatingCall_AMR.cap frame 39 *)
  [0; 20; 64; 15; 0; 0; 2; 0; 16; 64; 3; 2; 131; 7; 0; 59; 64; 1; 0];
  (* pcap/ranap/MobileOriginatingCall_AMR.cap frame 42 *)
  [0; 20; 64; 10; 0; 0; 1; 0; 16; 64; 3; 2; 3; 143];
  (* pcap/ranap/MobileOriginatingCall_AMR.cap frame 282 *)
  [0; 20; 64; 13; 0; 0; 1; 0; 16; 64; 6; 5; 3; 229; 2; 224; 144];
  (* pcap/ranap/MobileOriginatingCall_AMR.cap frame 285 *)
  [0; 20; 64; 15; 0; 0; 2; 0; 16; 64; 3; 2; 131; 45; 0; 59; 64; 1; 0];
  (* pcap/ranap/MobileOriginatingCall_AMR.cap frame 287 *)
  [0; 20; 64; 10; 0; 0; 1; 0; 16; 64; 3; 2; 3; 42];
  (* pcap/ranap/MobileTerminatingCall_AMR.cap frame 3 *)
  [0; 14; 64; 21; 0; 0; 2; 0; 3; 64; 1; 0; 0; 23; 64; 9; 80; 33; 67; 101; 135; 0; 2; 0; 240];
  (* pcap/ranap/MobileTerminatingCall_AMR.cap frame 5 *)
  [0; 19; 64; 67; 0; 0; 6; 0; 3; 64; 1; 0; 0; 15; 64; 6; 0; 98; 241; 16; 64; 1; 0; 58; 64; 8; 0; 98; 241; 16; 64; 1; 129; 149; 0; 16; 64; 17; 16; 6; 39; 0; 3; 64; 16; 0; 8; 25; 50; 84; 118; 8; 32; 0; 0; 0; 79; 64; 3; 32; 7; 2; 0; 86; 64; 5; 98; 241; 16; 0; 1];
  (* pcap/ranap/MobileTerminatingCall_AMR.cap frame 9 *)
  [0; 20; 64; 15; 0; 0; 2; 0; 16; 64; 3; 2; 3; 5; 0; 59; 64; 1; 0];
  (* pcap/ranap/MobileTerminatingCall_AMR.cap frame 11 *)
  [0; 20; 64; 22; 0; 0; 1; 0; 16; 64; 15; 14; 131; 8; 4; 1; 160; 64; 7; 4; 5; 4; 4; 1; 6; 255];
  (* pcap/ranap/MobileTerminatingCall_AMR.cap frame 13 *)
  [0; 0; 0; 128; 171; 0; 0; 1; 0; 54; 64; 128; 163; 0; 0; 1; 0; 53; 0; 128; 143; 56; 2; 216; 1; 47; 167; 32; 47; 168; 0; 0; 244; 76; 100; 6; 18; 128; 0; 81; 64; 0; 65; 64; 0; 75; 64; 0; 61; 64; 0; 58; 64; 0; 55; 64; 0; 49; 64; 0; 42; 64; 0; 39; 64; 0; 0; 32; 40; 148; 0; 103; 64; 0; 99; 64; 0; 84; 64; 0; 87; 64; 0; 76; 64; 0; 63; 64; 0; 54; 64; 0; 53; 64; 0; 0; 64; 0; 0; 32; 40; 148; 0; 60; 64; 0; 40; 64; 0; 0; 64; 0; 0; 64; 0; 0; 64; 0; 0; 64; 0; 0; 64; 0; 0; 64; 0; 0; 64; 0; 0; 0; 100; 60; 2; 0; 2; 39; 192; 53; 0; 1; 50; 2; 1; 1; 0; 0; 0; 0; 0; 0; 0; 0; 0; 0; 0; 0; 0; 64; 195; 82; 0; 0; 64; 10; 65; 24; 0; 0; 0; 89; 64; 2; 64; 0];
  (* pcap/ranap/MobileTerminatingCall_AMR.cap frame 26 *)
  [96; 0; 0; 54; 0; 0; 1; 0; 52; 64; 47; 0; 0; 1; 0; 51; 64; 40; 104; 10; 124; 53; 0; 1; 50; 3; 1; 1; 0; 0; 0; 0; 0; 0; 0; 0; 0; 0; 0; 0; 0; 64; 156; 66; 0; 0; 0; 0; 0; 90; 64; 6; 98; 47; 167; 32; 47; 168];
  (* pcap/ranap/MobileTerminatingCall_AMR.cap frame 32 *)
  [0; 20; 64; 10; 0; 0; 1; 0; 16; 64; 3; 2; 131; 65];
  (* pcap/ranap/MobileTerminatingCall_AMR.cap frame 50 *)
  [0; 20; 64; 10; 0; 0; 1; 0; 16; 64; 3; 2; 131; 135];
  (* pcap/ranap/MobileTerminatingCall_AMR.cap frame 53 *)
  [0; 20; 64; 15; 0; 0; 2; 0; 16; 64; 3; 2; 3; 15; 0; 59; 64; 1; 0];
  (* pcap/ranap/MobileTerminatingCall_AMR.cap frame 292 *)
  [0; 20; 64; 18; 0; 0; 2; 0; 16; 64; 6; 5; 3; 37; 2; 224; 144; 0; 59; 64; 1; 0];
  (* pcap/ranap/MobileTerminatingCall_AMR.cap frame 296 *)
  [0; 20; 64; 10; 0; 0; 1; 0; 16; 64; 3; 2; 131; 237];
  (* pcap/ranap/MobileTerminatingCall_AMR.cap frame 298 *)
  [0; 20; 64; 15; 0; 0; 2; 0; 16; 64; 3; 2; 3; 42; 0; 59; 64; 1; 0];
  (* pcap/ranap/ranap.pcap frame 1 *)
  [0; 19; 64; 64; 0; 0; 6; 0; 3; 64; 1; 0; 0; 15; 64; 6; 0; 70; 243; 18; 0; 100; 0; 58; 64; 8; 0; 70; 243; 18; 0; 100; 0; 0; 0; 16; 64; 14; 13; 5; 36; 113; 3; 79; 24; 128; 5; 244; 7; 0; 0; 8; 0; 79; 64; 3; 0; 0; 0; 0; 86; 64; 5; 70; 243; 18; 0; 15];
  (* pcap/ranap/ranap.pcap frame 3 *)
  [0; 15; 64; 16; 0; 0; 1; 0; 23; 64; 9; 80; 70; 35; 145; 52; 112; 119; 128; 243];
  (* pcap/ranap/ranap.pcap frame 4 *)
  [0; 20; 64; 15; 0; 0; 2; 0; 59; 64; 1; 0; 0; 16; 64; 3; 2; 5; 33];
  (* pcap/ranap/ranap.pcap frame 5 *)
  [0; 20; 64; 25; 0; 0; 1; 0; 16; 64; 18; 17; 3; 69; 4; 4; 96; 2; 0; 129; 94; 3; 129; 101; 66; 21; 2; 17; 1];
  (* pcap/ranap/ranap.pcap frame 6 *)
  [0; 20; 64; 16; 0; 0; 2; 0; 59; 64; 1; 0; 0; 16; 64; 4; 3; 131; 2; 128];
  (* pcap/ranap/ranap.pcap frame 7 *)
  [0; 0; 64; 71; 0; 0; 1; 0; 54; 0; 64; 0; 0; 1; 0; 53; 0; 54; 56; 2; 208; 1; 47; 167; 32; 47; 168; 0; 0; 244; 76; 8; 10; 2; 128; 0; 81; 64; 0; 39; 32; 40; 20; 0; 103; 64; 0; 0; 34; 40; 20; 0; 60; 64; 0; 0; 0; 80; 61; 8; 0; 16; 31; 175; 2; 110; 214; 64; 71; 212; 0; 0; 64; 1; 0];
  (* pcap/ranap/ranap.pcap frame 8 *)
  [96; 0; 0; 26; 0; 0; 1; 0; 52; 64; 19; 0; 0; 1; 0; 51; 64; 12; 96; 8; 124; 10; 128; 36; 34; 64; 226; 4; 0; 0];
  (* pcap/ranap/ranap.pcap frame 9 *)
  [0; 20; 64; 18; 0; 0; 2; 0; 59; 64; 1; 0; 0; 16; 64; 6; 5; 131; 37; 2; 226; 159];
  (* pcap/ranap/ranap.pcap frame 11 *)
  [0; 20; 64; 15; 0; 0; 2; 0; 59; 64; 1; 0; 0; 16; 64; 3; 2; 131; 42];
  (* pcap/ranap/ranap.pcap frame 12 *)
  [0; 11; 64; 9; 0; 0; 1; 0; 4; 64; 2; 3; 64];
  (* pcap/ranap/ranap.pcap frame 14 *)
  [0; 27; 0; 28; 0; 0; 3; 0; 3; 0; 1; 0; 0; 4; 64; 1; 66; 0; 77; 64; 11; 0; 0; 1; 0; 78; 0; 4; 0; 0; 0; 0];
  (* pcap/ranap/ranap.pcap frame 15 *)
  [0; 1; 64; 9; 0; 0; 1; 0; 4; 0; 2; 3; 64]].
(* /repo/pcap *)
Definition captured_rua : list (list N) := [
  (* pcap/20150911-hnbap-ue_register.pcap frame 9 *)
  [0; 4; 64; 34; 0; 0; 1; 0; 4; 0; 27; 26; 0; 9; 0; 22; 0; 0; 3; 0; 4; 64; 1; 64; 0; 3; 0; 1; 0; 0; 86; 64; 5; 9; 241; 153; 0; 0];
  (* pcap/20150911-hnbap-ue_register.pcap frame 10 *)
  [0; 4; 0; 20; 0; 0; 1; 0; 4; 0; 13; 12; 32; 9; 0; 8; 0; 0; 1; 0; 3; 0; 1; 0];
  (* pcap/20150911-hnbap-ue_register.pcap frame 11 *)
  [0; 4; 64; 34; 0; 0; 1; 0; 4; 0; 27; 26; 0; 9; 0; 22; 0; 0; 3; 0; 4; 64; 1; 64; 0; 3; 0; 1; 128; 0; 86; 64; 5; 9; 241; 153; 0; 0];
  (* pcap/20150911-hnbap-ue_register.pcap frame 13 *)
  [0; 4; 0; 20; 0; 0; 1; 0; 4; 0; 13; 12; 32; 9; 0; 8; 0; 0; 1; 0; 3; 0; 1; 128];
  (* pcap/2016-01-22_PS_data.pcapng frame 29 *)
  [0; 4; 64; 34; 0; 0; 1; 0; 4; 0; 27; 26; 0; 9; 0; 22; 0; 0; 3; 0; 4; 64; 1; 64; 0; 3; 0; 1; 0; 0; 86; 64; 5; 9; 241; 137; 0; 0];
  (* pcap/2016-01-22_PS_data.pcapng frame 30 *)
  [0; 4; 64; 34; 0; 0; 1; 0; 4; 0; 27; 26; 0; 9; 0; 22; 0; 0; 3; 0; 4; 64; 1; 64; 0; 3; 0; 1; 128; 0; 86; 64; 5; 9; 241; 137; 0; 0];
  (* pcap/2016-01-22_PS_data.pcapng frame 44 *)
  [0; 1; 64; 124; 0; 0; 5; 0; 7; 0; 1; 0; 0; 3; 0; 3; 0; 0; 23; 0; 5; 64; 2; 37; 146; 0; 6; 0; 1; 64; 0; 4; 0; 94; 93; 0; 19; 64; 89; 64; 0; 6; 0; 3; 64; 1; 0; 0; 15; 64; 6; 0; 9; 241; 137; 64; 32; 0; 58; 64; 8; 0; 9; 241; 137; 64; 32; 0; 1; 0; 16; 64; 24; 23; 5; 8; 112; 9; 241; 50; 255; 254; 87; 8; 41; 38; 119; 8; 98; 65; 23; 83; 51; 3; 87; 88; 166; 0; 79; 64; 3; 0; 0; 0; 0; 86; 64; 5; 9; 241; 137; 0; 0; 0; 0; 0; 23; 64; 9; 80; 98; 114; 135; 32; 22; 116; 49; 245];
  (* pcap/2016-01-22_PS_data.pcapng frame 45 *)
  [0; 1; 64; 128; 139; 0; 0; 5; 0; 7; 0; 1; 128; 0; 3; 0; 3; 0; 0; 23; 0; 5; 64; 2; 23; 26; 0; 6; 0; 1; 64; 0; 4; 0; 109; 108; 0; 19; 64; 104; 64; 0; 7; 0; 3; 64; 1; 128; 0; 15; 64; 6; 0; 9; 241; 137; 64; 32; 0; 55; 64; 1; 100; 0; 58; 64; 8; 0; 9; 241; 137; 64; 32; 0; 1; 0; 16; 64; 34; 33; 8; 1; 2; 229; 224; 1; 10; 0; 5; 244; 244; 227; 114; 251; 9; 241; 152; 64; 32; 100; 10; 8; 115; 67; 43; 55; 21; 150; 98; 30; 64; 23; 5; 0; 79; 64; 3; 0; 0; 1; 0; 86; 64; 5; 9; 241; 137; 0; 0; 0; 0; 0; 23; 64; 9; 80; 98; 114; 135; 32; 22; 116; 49; 245];
  (* pcap/2016-01-22_PS_data.pcapng frame 51 *)
  [0; 2; 0; 40; 0; 0; 3; 0; 7; 0; 1; 128; 0; 3; 0; 3; 0; 0; 23; 0; 4; 0; 21; 20; 0; 20; 0; 16; 0; 0; 2; 0; 16; 64; 4; 3; 8; 21; 2; 0; 59; 64; 1; 0];
  (* pcap/2016-01-22_PS_data.pcapng frame 52 *)
  [0; 2; 64; 70; 0; 0; 3; 0; 7; 0; 1; 128; 0; 3; 0; 3; 0; 0; 23; 0; 4; 0; 51; 50; 0; 20; 64; 46; 0; 0; 4; 0; 16; 64; 12; 11; 8; 22; 8; 58; 69; 0; 0; 3; 148; 135; 4; 0; 15; 64; 6; 0; 9; 241; 137; 64; 32; 0; 55; 64; 1; 100; 0; 58; 64; 8; 0; 9; 241; 137; 64; 32; 0; 1];
  (* pcap/2016-01-22_PS_data.pcapng frame 53 *)
  [0; 2; 0; 40; 0; 0; 3; 0; 7; 0; 1; 128; 0; 3; 0; 3; 0; 0; 23; 0; 4; 0; 21; 20; 0; 20; 0; 16; 0; 0; 2; 0; 16; 64; 4; 3; 8; 21; 1; 0; 59; 64; 1; 0];
  (* pcap/2016-01-22_PS_data.pcapng frame 59 *)
  [0; 2; 64; 70; 0; 0; 3; 0; 7; 0; 1; 128; 0; 3; 0; 3; 0; 0; 23; 0; 4; 0; 51; 50; 0; 20; 64; 46; 0; 0; 4; 0; 16; 64; 12; 11; 8; 22; 8; 41; 38; 119; 8; 98; 65; 23; 83; 0; 15; 64; 6; 0; 9; 241; 137; 64; 32; 0; 55; 64; 1; 100; 0; 58; 64; 8; 0; 9; 241; 137; 64; 32; 0; 1];
  (* pcap/2016-01-22_PS_data.pcapng frame 60 *)
  [0; 2; 0; 59; 0; 0; 3; 0; 7; 0; 1; 128; 0; 3; 0; 3; 0; 0; 23; 0; 4; 0; 40; 39; 0; 20; 0; 35; 0; 0; 2; 0; 16; 64; 23; 22; 8; 18; 16; 0; 33; 0; 0; 0; 0; 0; 0; 0; 0; 0; 0; 0; 0; 0; 0; 0; 0; 128; 0; 59; 64; 1; 0];
  (* pcap/2016-01-22_PS_data.pcapng frame 64 *)
  [0; 2; 64; 78; 0; 0; 3; 0; 7; 0; 1; 128; 0; 3; 0; 3; 0; 0; 23; 0; 4; 0; 59; 58; 0; 20; 64; 54; 0; 0; 4; 0; 16; 64; 20; 19; 8; 19; 0; 34; 97; 181; 105; 245; 35; 9; 51; 69; 0; 0; 3; 148; 135; 4; 245; 0; 15; 64; 6; 0; 9; 241; 137; 64; 32; 0; 55; 64; 1; 100; 0; 58; 64; 8; 0; 9; 241; 137; 64; 32; 0; 1];
  (* pcap/2016-01-22_PS_data.pcapng frame 67 *)
  [0; 2; 0; 57; 0; 0; 3; 0; 7; 0; 1; 128; 0; 3; 0; 3; 0; 0; 23; 0; 4; 0; 38; 37; 0; 20; 0; 33; 0; 0; 2; 0; 16; 64; 21; 20; 8; 2; 1; 42; 4; 9; 241; 152; 64; 32; 100; 23; 22; 24; 5; 244; 213; 205; 247; 186; 0; 59; 64; 1; 0];
  (* pcap/2016-01-22_PS_data.pcapng frame 69 *)
  [0; 2; 0; 54; 0; 0; 3; 0; 7; 0; 1; 128; 0; 3; 0; 3; 0; 0; 23; 0; 4; 0; 35; 34; 0; 6; 0; 30; 0; 0; 2; 0; 12; 0; 18; 8; 8; 187; 164; 170; 237; 217; 217; 194; 237; 98; 125; 104; 0; 187; 164; 170; 237; 0; 75; 0; 1; 64];
  (* pcap/2016-01-22_PS_data.pcapng frame 73 *)
  [0; 2; 64; 37; 0; 0; 3; 0; 7; 0; 1; 128; 0; 3; 0; 3; 0; 0; 23; 0; 4; 0; 18; 17; 32; 6; 0; 13; 0; 0; 2; 0; 6; 0; 1; 0; 0; 5; 64; 1; 0];
  (* pcap/2016-01-22_PS_data.pcapng frame 81 *)
  [0; 2; 64; 61; 0; 0; 3; 0; 7; 0; 1; 128; 0; 3; 0; 3; 0; 0; 23; 0; 4; 0; 42; 41; 0; 20; 64; 37; 0; 0; 4; 0; 16; 64; 3; 2; 8; 3; 0; 15; 64; 6; 0; 9; 241; 137; 64; 32; 0; 55; 64; 1; 100; 0; 58; 64; 8; 0; 9; 241; 137; 64; 32; 0; 1];
  (* pcap/2016-01-22_PS_data.pcapng frame 87 *)
  [0; 2; 64; 114; 0; 0; 3; 0; 7; 0; 1; 128; 0; 3; 0; 3; 0; 0; 23; 0; 4; 0; 95; 94; 0; 20; 64; 90; 0; 0; 4; 0; 16; 64; 56; 55; 10; 65; 5; 3; 14; 0; 0; 0; 0; 0; 0; 0; 0; 0; 0; 0; 0; 0; 0; 2; 1; 33; 40; 9; 8; 105; 110; 116; 101; 114; 110; 101; 116; 39; 20; 128; 128; 33; 16; 1; 0; 0; 16; 129; 6; 0; 0; 0; 0; 131; 6; 0; 0; 0; 0; 0; 15; 64; 6; 0; 9; 241; 137; 64; 32; 0; 55; 64; 1; 100; 0; 58; 64; 8; 0; 9; 241; 137; 64; 32; 0; 1];
  (* pcap/2016-01-22_PS_data.pcapng frame 88 *)
  [0; 2; 0; 81; 0; 0; 3; 0; 7; 0; 1; 128; 0; 3; 0; 3; 0; 0; 23; 0; 4; 0; 62; 61; 0; 0; 0; 57; 0; 0; 1; 0; 54; 64; 50; 0; 0; 1; 0; 53; 0; 35; 56; 2; 16; 222; 24; 105; 255; 128; 12; 52; 255; 0; 31; 64; 8; 6; 8; 158; 0; 0; 4; 27; 128; 53; 0; 1; 192; 168; 0; 51; 0; 0; 0; 0; 1; 64; 6; 120; 28; 0; 0; 0; 0];
  (* pcap/2016-01-22_PS_data.pcapng frame 95 *)
  [0; 2; 64; 53; 0; 0; 3; 0; 7; 0; 1; 128; 0; 3; 0; 3; 0; 0; 23; 0; 4; 0; 34; 33; 96; 0; 0; 29; 0; 0; 1; 0; 52; 64; 22; 0; 0; 1; 0; 51; 64; 15; 96; 8; 220; 53; 0; 1; 192; 168; 0; 50; 0; 0; 0; 0; 1];
  (* pcap/2016-01-22_PS_data.pcapng frame 96 *)
  [0; 2; 0; 86; 0; 0; 3; 0; 7; 0; 1; 128; 0; 3; 0; 3; 0; 0; 23; 0; 4; 0; 67; 66; 0; 20; 0; 62; 0; 0; 2; 0; 16; 64; 50; 49; 138; 66; 3; 14; 35; 98; 31; 114; 153; 63; 63; 17; 67; 255; 255; 0; 0; 0; 0; 43; 6; 1; 33; 10; 23; 42; 2; 39; 20; 128; 128; 33; 16; 2; 0; 0; 16; 129; 6; 8; 8; 8; 8; 131; 6; 0; 0; 0; 0; 0; 59; 64; 1; 0];
  (* pcap/2016-01-22_PS_data.pcapng frame 599 *)
  [0; 2; 64; 33; 0; 0; 3; 0; 7; 0; 1; 0; 0; 3; 0; 3; 0; 0; 23; 0; 4; 0; 14; 13; 0; 11; 64; 9; 0; 0; 1; 0; 4; 64; 2; 9; 192];
  (* pcap/2016-01-22_PS_data.pcapng frame 1920 *)
  [0; 2; 64; 33; 0; 0; 3; 0; 7; 0; 1; 0; 0; 3; 0; 3; 0; 0; 23; 0; 4; 0; 14; 13; 0; 11; 64; 9; 0; 0; 1; 0; 4; 64; 2; 3; 128];
  (* pcap/2016-01-22_PS_data.pcapng frame 2068 *)
  [0; 2; 64; 55; 0; 0; 3; 0; 7; 0; 1; 0; 0; 3; 0; 3; 0; 0; 23; 0; 4; 0; 36; 35; 0; 20; 64; 31; 0; 0; 1; 0; 16; 64; 24; 23; 5; 8; 112; 9; 241; 50; 255; 254; 87; 8; 41; 38; 119; 8; 98; 65; 23; 83; 51; 3; 87; 88; 166];
  (* pcap/2016-01-22_PS_data.pcapng frame 2084 *)
  [0; 3; 64; 20; 0; 0; 3; 0; 7; 0; 1; 0; 0; 3; 0; 3; 0; 0; 23; 0; 1; 0; 1; 108];
  (* pcap/2016-01-22_PS_data.pcapng frame 2108 *)
  [0; 2; 64; 33; 0; 0; 3; 0; 7; 0; 1; 128; 0; 3; 0; 3; 0; 0; 23; 0; 4; 0; 14; 13; 0; 11; 64; 9; 0; 0; 1; 0; 4; 64; 2; 9; 192];
  (* pcap/2016-01-22_PS_data.pcapng frame 2111 *)
  [0; 2; 0; 33; 0; 0; 3; 0; 7; 0; 1; 128; 0; 3; 0; 3; 0; 0; 23; 0; 4; 0; 14; 13; 0; 1; 0; 9; 0; 0; 1; 0; 4; 64; 2; 9; 128];
  (* pcap/2016-01-22_PS_data.pcapng frame 2112 *)
  [0; 3; 64; 32; 0; 0; 4; 0; 7; 0; 1; 128; 0; 3; 0; 3; 0; 0; 23; 0; 1; 0; 1; 0; 0; 4; 0; 8; 7; 32; 1; 0; 3; 0; 0; 0];
  (* pcap/2016-01-22_PS_data.pcapng frame 2125 *)
  [0; 1; 64; 128; 146; 0; 0; 5; 0; 7; 0; 1; 128; 0; 3; 0; 3; 0; 0; 23; 0; 5; 64; 2; 22; 110; 0; 6; 0; 1; 64; 0; 4; 0; 116; 115; 0; 19; 64; 111; 64; 0; 7; 0; 3; 64; 1; 128; 0; 15; 64; 6; 0; 9; 241; 137; 64; 32; 0; 55; 64; 1; 100; 0; 58; 64; 8; 0; 9; 241; 137; 64; 32; 0; 1; 0; 16; 64; 41; 40; 8; 8; 0; 9; 241; 152; 64; 32; 100; 10; 8; 115; 67; 43; 55; 21; 150; 98; 30; 64; 23; 5; 39; 10; 0; 24; 5; 244; 213; 205; 247; 186; 49; 2; 229; 224; 50; 2; 32; 0; 0; 79; 64; 3; 0; 0; 2; 0; 86; 64; 5; 9; 241; 137; 0; 0; 0; 0; 0; 23; 64; 9; 80; 98; 114; 135; 32; 22; 116; 49; 245];
  (* pcap/2016-01-22_PS_data.pcapng frame 2151 *)
  [0; 1; 64; 124; 0; 0; 5; 0; 7; 0; 1; 0; 0; 3; 0; 3; 0; 0; 23; 0; 5; 64; 2; 37; 146; 0; 6; 0; 1; 64; 0; 4; 0; 94; 93; 0; 19; 64; 89; 64; 0; 6; 0; 3; 64; 1; 0; 0; 15; 64; 6; 0; 9; 241; 137; 64; 32; 0; 58; 64; 8; 0; 9; 241; 137; 64; 32; 0; 1; 0; 16; 64; 24; 23; 5; 8; 112; 9; 241; 50; 255; 254; 87; 8; 41; 38; 119; 8; 98; 65; 23; 83; 51; 3; 87; 88; 166; 0; 79; 64; 3; 0; 0; 3; 0; 86; 64; 5; 9; 241; 137; 0; 0; 0; 0; 0; 23; 64; 9; 80; 98; 114; 135; 32; 22; 116; 49; 245];
  (* pcap/2016-01-22_PS_data.pcapng frame 2157 *)
  [0; 2; 64; 99; 0; 0; 3; 0; 7; 0; 1; 128; 0; 3; 0; 3; 0; 0; 23; 0; 4; 0; 80; 79; 0; 20; 64; 75; 0; 0; 4; 0; 16; 64; 41; 40; 8; 8; 8; 9; 241; 152; 64; 32; 100; 10; 8; 115; 67; 43; 55; 21; 150; 98; 30; 64; 23; 5; 39; 10; 0; 24; 5; 244; 213; 205; 247; 186; 49; 2; 229; 224; 50; 2; 32; 0; 0; 15; 64; 6; 0; 9; 241; 137; 64; 32; 0; 55; 64; 1; 100; 0; 58; 64; 8; 0; 9; 241; 137; 64; 32; 0; 1]].
(* /repo/pcap *)
Definition captured_hnbap : list (list N) := [
  (* pcap/20150911-hnbap-ue_register.pcap frame 5 *)
  [0; 1; 0; 87; 0; 0; 7; 0; 3; 0; 21; 4; 128; 49; 48; 48; 48; 53; 66; 57; 45; 48; 48; 49; 48; 57; 52; 50; 48; 53; 48; 64; 0; 8; 0; 23; 80; 0; 0; 0; 0; 0; 240; 0; 0; 0; 0; 0; 0; 0; 0; 17; 0; 5; 0; 192; 168; 0; 50; 0; 9; 0; 3; 9; 241; 153; 0; 11; 0; 4; 0; 0; 0; 0; 0; 6; 0; 2; 64; 32; 0; 7; 0; 1; 100; 0; 10; 0; 2; 0; 1];
  (* pcap/20150911-hnbap-ue_register.pcap frame 7 *)
  [32; 1; 0; 9; 0; 0; 1; 0; 14; 0; 2; 0; 0];
  (* pcap/20150911-hnbap-ue_register.pcap frame 35 *)
  [0; 3; 0; 26; 0; 0; 3; 0; 5; 0; 9; 10; 98; 2; 35; 19; 130; 69; 112; 246; 0; 12; 64; 1; 64; 0; 13; 0; 1; 13];
  (* pcap/20150911-hnbap-ue_register.pcap frame 37 *)
  [0; 5; 64; 8; 0; 0; 1; 0; 1; 64; 1; 64];
  (* pcap/2016-01-22_PS_data.pcapng frame 25 *)
  [0; 1; 0; 94; 0; 0; 7; 0; 3; 0; 28; 6; 64; 49; 48; 48; 48; 53; 66; 57; 45; 48; 48; 49; 48; 57; 52; 50; 48; 53; 48; 64; 115; 121; 115; 109; 99; 111; 109; 0; 8; 0; 23; 80; 0; 0; 0; 0; 0; 240; 0; 0; 0; 0; 0; 0; 0; 0; 17; 0; 5; 0; 192; 168; 0; 50; 0; 9; 0; 3; 9; 241; 137; 0; 11; 0; 4; 0; 0; 0; 0; 0; 6; 0; 2; 64; 32; 0; 7; 0; 1; 100; 0; 10; 0; 2; 0; 1];
  (* pcap/2016-01-22_PS_data.pcapng frame 42 *)
  [0; 3; 0; 26; 0; 0; 3; 0; 5; 0; 9; 10; 98; 114; 135; 32; 22; 116; 49; 245; 0; 12; 64; 1; 64; 0; 13; 0; 1; 13];
  (* pcap/2016-01-22_PS_data.pcapng frame 43 *)
  [32; 3; 0; 23; 0; 0; 2; 0; 5; 0; 9; 10; 98; 114; 135; 32; 22; 116; 49; 245; 0; 4; 0; 3; 0; 0; 23]].
(* A UE Register Accept with a Context-ID of no octets, which is not an encoding of
   BIT STRING (SIZE (24)): pcap/20150911-hnbap-ue_register.pcap frame 36 *)
Definition captured_malformed : list N := [32; 3; 0; 20; 0; 0; 2; 0; 5; 0; 9; 10; 38; 48; 50; 33; 88; 4; 103; 0; 0; 4; 0; 0].
