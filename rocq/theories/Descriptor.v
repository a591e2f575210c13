(** What the generated files say about messages and methods: constants, written by tools/gendesc.py from the text of
    rpc/comfo/comfo.pb.go, rpc/comfo/comfo.twirp.go, python/comfo/comfo_pb2.py and python/comfo/comfo_twirp.py. *)
From Coq Require Import String.
From Verif Require Import GoBase.

(** comfo.pb.go:1198-1374 file_comfo_proto_rawDesc *)
Definition go_rawDesc : list byte := [
  10; 11; 99; 111; 109; 102; 111; 46; 112; 114; 111; 116; 111; 18; 9; 99; 111; 109; 102; 111; 46; 97; 112; 105; 34;
  6; 10; 4; 78; 111; 111; 112; 34; 118; 10; 6; 66; 121; 112; 97; 115; 115; 18; 22; 10; 6; 70; 97; 99; 116; 111; 114;
  24; 1; 32; 1; 40; 13; 82; 6; 70; 97; 99; 116; 111; 114; 18; 20; 10; 5; 76; 101; 118; 101; 108; 24; 2; 32; 1; 40;
  13; 82; 5; 76; 101; 118; 101; 108; 18; 30; 10; 10; 67; 111; 114; 114; 101; 99; 116; 105; 111; 110; 24; 3; 32; 1;
  40; 13; 82; 10; 67; 111; 114; 114; 101; 99; 116; 105; 111; 110; 18; 30; 10; 10; 83; 117; 109; 109; 101; 114; 77;
  111; 100; 101; 24; 4; 32; 1; 40; 8; 82; 10; 83; 117; 109; 109; 101; 114; 77; 111; 100; 101; 34; 148; 1; 10; 8; 66;
  111; 111; 116; 73; 110; 102; 111; 18; 34; 10; 12; 77; 97; 106; 111; 114; 86; 101; 114; 115; 105; 111; 110; 24; 1;
  32; 1; 40; 13; 82; 12; 77; 97; 106; 111; 114; 86; 101; 114; 115; 105; 111; 110; 18; 34; 10; 12; 77; 105; 110; 111;
  114; 86; 101; 114; 115; 105; 111; 110; 24; 2; 32; 1; 40; 13; 82; 12; 77; 105; 110; 111; 114; 86; 101; 114; 115;
  105; 111; 110; 18; 32; 10; 11; 66; 101; 116; 97; 86; 101; 114; 115; 105; 111; 110; 24; 3; 32; 1; 40; 13; 82; 11;
  66; 101; 116; 97; 86; 101; 114; 115; 105; 111; 110; 18; 30; 10; 10; 68; 101; 118; 105; 99; 101; 78; 97; 109; 101;
  24; 4; 32; 1; 40; 9; 82; 10; 68; 101; 118; 105; 99; 101; 78; 97; 109; 101; 34; 49; 10; 13; 67; 111; 109; 102; 111;
  114; 116; 84; 97; 114; 103; 101; 116; 18; 32; 10; 11; 67; 111; 109; 102; 111; 114; 116; 84; 101; 109; 112; 24; 1;
  32; 1; 40; 13; 82; 11; 67; 111; 109; 102; 111; 114; 116; 84; 101; 109; 112; 34; 139; 1; 10; 15; 67; 111; 109; 102;
  111; 114; 116; 77; 111; 100; 105; 102; 105; 101; 100; 18; 26; 10; 8; 77; 111; 100; 105; 102; 105; 101; 100; 24; 1;
  32; 1; 40; 8; 82; 8; 77; 111; 100; 105; 102; 105; 101; 100; 18; 34; 10; 12; 79; 114; 105; 103; 105; 110; 97; 108;
  84; 101; 109; 112; 24; 2; 32; 1; 40; 13; 82; 12; 79; 114; 105; 103; 105; 110; 97; 108; 84; 101; 109; 112; 18; 30;
  10; 10; 84; 97; 114; 103; 101; 116; 84; 101; 109; 112; 24; 3; 32; 1; 40; 13; 82; 10; 84; 97; 114; 103; 101; 116;
  84; 101; 109; 112; 18; 24; 10; 7; 82; 101; 113; 84; 105; 109; 101; 24; 4; 32; 1; 40; 9; 82; 7; 82; 101; 113; 84;
  105; 109; 101; 34; 32; 10; 6; 69; 114; 114; 111; 114; 115; 18; 22; 10; 6; 70; 105; 108; 116; 101; 114; 24; 1; 32;
  1; 40; 8; 82; 6; 70; 105; 108; 116; 101; 114; 34; 122; 10; 4; 70; 97; 110; 115; 18; 28; 10; 9; 73; 110; 80; 101;
  114; 99; 101; 110; 116; 24; 1; 32; 1; 40; 13; 82; 9; 73; 110; 80; 101; 114; 99; 101; 110; 116; 18; 30; 10; 10; 79;
  117; 116; 80; 101; 114; 99; 101; 110; 116; 24; 2; 32; 1; 40; 13; 82; 10; 79; 117; 116; 80; 101; 114; 99; 101; 110;
  116; 18; 24; 10; 7; 73; 110; 83; 112; 101; 101; 100; 24; 3; 32; 1; 40; 13; 82; 7; 73; 110; 83; 112; 101; 101; 100;
  18; 26; 10; 8; 79; 117; 116; 83; 112; 101; 101; 100; 24; 4; 32; 1; 40; 13; 82; 8; 79; 117; 116; 83; 112; 101; 101;
  100; 34; 207; 2; 10; 11; 70; 97; 110; 80; 114; 111; 102; 105; 108; 101; 115; 18; 24; 10; 7; 79; 117; 116; 65; 119;
  97; 121; 24; 1; 32; 1; 40; 13; 82; 7; 79; 117; 116; 65; 119; 97; 121; 18; 22; 10; 6; 79; 117; 116; 76; 111; 119;
  24; 2; 32; 1; 40; 13; 82; 6; 79; 117; 116; 76; 111; 119; 18; 22; 10; 6; 79; 117; 116; 77; 105; 100; 24; 3; 32; 1;
  40; 13; 82; 6; 79; 117; 116; 77; 105; 100; 18; 24; 10; 7; 79; 117; 116; 72; 105; 103; 104; 24; 4; 32; 1; 40; 13;
  82; 7; 79; 117; 116; 72; 105; 103; 104; 18; 32; 10; 11; 73; 110; 70; 97; 110; 65; 99; 116; 105; 118; 101; 24; 5;
  32; 1; 40; 8; 82; 11; 73; 110; 70; 97; 110; 65; 99; 116; 105; 118; 101; 18; 22; 10; 6; 73; 110; 65; 119; 97; 121;
  24; 6; 32; 1; 40; 13; 82; 6; 73; 110; 65; 119; 97; 121; 18; 20; 10; 5; 73; 110; 76; 111; 119; 24; 7; 32; 1; 40; 13;
  82; 5; 73; 110; 76; 111; 119; 18; 20; 10; 5; 73; 110; 77; 105; 100; 24; 8; 32; 1; 40; 13; 82; 5; 73; 110; 77; 105;
  100; 18; 22; 10; 6; 73; 110; 72; 105; 103; 104; 24; 9; 32; 1; 40; 13; 82; 6; 73; 110; 72; 105; 103; 104; 18; 30;
  10; 10; 67; 117; 114; 114; 101; 110; 116; 79; 117; 116; 24; 10; 32; 1; 40; 13; 82; 10; 67; 117; 114; 114; 101; 110;
  116; 79; 117; 116; 18; 28; 10; 9; 67; 117; 114; 114; 101; 110; 116; 73; 110; 24; 11; 32; 1; 40; 13; 82; 9; 67; 117;
  114; 114; 101; 110; 116; 73; 110; 18; 32; 10; 11; 67; 117; 114; 114; 101; 110; 116; 77; 111; 100; 101; 24; 12; 32;
  1; 40; 13; 82; 11; 67; 117; 114; 114; 101; 110; 116; 77; 111; 100; 101; 34; 72; 10; 16; 70; 97; 110; 80; 114; 111;
  102; 105; 108; 101; 84; 97; 114; 103; 101; 116; 18; 18; 10; 4; 77; 111; 100; 101; 24; 1; 32; 1; 40; 13; 82; 4; 77;
  111; 100; 101; 18; 32; 10; 11; 84; 97; 114; 103; 101; 116; 83; 112; 101; 101; 100; 24; 2; 32; 1; 40; 13; 82; 11;
  84; 97; 114; 103; 101; 116; 83; 112; 101; 101; 100; 34; 146; 1; 10; 18; 70; 97; 110; 80; 114; 111; 102; 105; 108;
  101; 77; 111; 100; 105; 102; 105; 101; 100; 18; 26; 10; 8; 77; 111; 100; 105; 102; 105; 101; 100; 24; 1; 32; 1; 40;
  8; 82; 8; 77; 111; 100; 105; 102; 105; 101; 100; 18; 36; 10; 13; 79; 114; 105; 103; 105; 110; 97; 108; 83; 112;
  101; 101; 100; 24; 2; 32; 1; 40; 13; 82; 13; 79; 114; 105; 103; 105; 110; 97; 108; 83; 112; 101; 101; 100; 18; 32;
  10; 11; 84; 97; 114; 103; 101; 116; 83; 112; 101; 101; 100; 24; 3; 32; 1; 40; 13; 82; 11; 84; 97; 114; 103; 101;
  116; 83; 112; 101; 101; 100; 18; 24; 10; 7; 82; 101; 113; 84; 105; 109; 101; 24; 4; 32; 1; 40; 9; 82; 7; 82; 101;
  113; 84; 105; 109; 101; 34; 52; 10; 14; 70; 97; 110; 83; 112; 101; 101; 100; 84; 97; 114; 103; 101; 116; 18; 16;
  10; 3; 65; 98; 115; 24; 1; 32; 1; 40; 13; 82; 3; 65; 98; 115; 18; 16; 10; 3; 82; 101; 108; 24; 2; 32; 1; 40; 8; 82;
  3; 82; 101; 108; 34; 144; 1; 10; 16; 70; 97; 110; 83; 112; 101; 101; 100; 77; 111; 100; 105; 102; 105; 101; 100;
  18; 26; 10; 8; 77; 111; 100; 105; 102; 105; 101; 100; 24; 1; 32; 1; 40; 8; 82; 8; 77; 111; 100; 105; 102; 105; 101;
  100; 18; 36; 10; 13; 79; 114; 105; 103; 105; 110; 97; 108; 83; 112; 101; 101; 100; 24; 2; 32; 1; 40; 13; 82; 13;
  79; 114; 105; 103; 105; 110; 97; 108; 83; 112; 101; 101; 100; 18; 32; 10; 11; 84; 97; 114; 103; 101; 116; 83; 112;
  101; 101; 100; 24; 3; 32; 1; 40; 13; 82; 11; 84; 97; 114; 103; 101; 116; 83; 112; 101; 101; 100; 18; 24; 10; 7; 82;
  101; 113; 84; 105; 109; 101; 24; 4; 32; 1; 40; 9; 82; 7; 82; 101; 113; 84; 105; 109; 101; 34; 229; 1; 10; 5; 72;
  111; 117; 114; 115; 18; 24; 10; 7; 70; 97; 110; 65; 119; 97; 121; 24; 1; 32; 1; 40; 13; 82; 7; 70; 97; 110; 65;
  119; 97; 121; 18; 22; 10; 6; 70; 97; 110; 76; 111; 119; 24; 2; 32; 1; 40; 13; 82; 6; 70; 97; 110; 76; 111; 119; 18;
  22; 10; 6; 70; 97; 110; 77; 105; 100; 24; 3; 32; 1; 40; 13; 82; 6; 70; 97; 110; 77; 105; 100; 18; 24; 10; 7; 70;
  97; 110; 72; 105; 103; 104; 24; 4; 32; 1; 40; 13; 82; 7; 70; 97; 110; 72; 105; 103; 104; 18; 34; 10; 12; 70; 114;
  111; 115; 116; 80; 114; 111; 116; 101; 99; 116; 24; 5; 32; 1; 40; 13; 82; 12; 70; 114; 111; 115; 116; 80; 114; 111;
  116; 101; 99; 116; 18; 28; 10; 9; 82; 101; 104; 101; 97; 116; 105; 110; 103; 24; 6; 32; 1; 40; 13; 82; 9; 82; 101;
  104; 101; 97; 116; 105; 110; 103; 18; 30; 10; 10; 66; 121; 112; 97; 115; 115; 79; 112; 101; 110; 24; 7; 32; 1; 40;
  13; 82; 10; 66; 121; 112; 97; 115; 115; 79; 112; 101; 110; 18; 22; 10; 6; 70; 105; 108; 116; 101; 114; 24; 8; 32;
  1; 40; 13; 82; 6; 70; 105; 108; 116; 101; 114; 34; 247; 1; 10; 5; 84; 101; 109; 112; 115; 18; 24; 10; 7; 67; 111;
  109; 102; 111; 114; 116; 24; 1; 32; 1; 40; 2; 82; 7; 67; 111; 109; 102; 111; 114; 116; 18; 30; 10; 10; 79; 117;
  116; 115; 105; 100; 101; 65; 105; 114; 24; 2; 32; 1; 40; 2; 82; 10; 79; 117; 116; 115; 105; 100; 101; 65; 105; 114;
  18; 28; 10; 9; 83; 117; 112; 112; 108; 121; 65; 105; 114; 24; 3; 32; 1; 40; 2; 82; 9; 83; 117; 112; 112; 108; 121;
  65; 105; 114; 18; 28; 10; 9; 73; 110; 115; 105; 100; 101; 65; 105; 114; 24; 4; 32; 1; 40; 2; 82; 9; 73; 110; 115;
  105; 100; 101; 65; 105; 114; 18; 30; 10; 10; 69; 120; 104; 97; 117; 115; 116; 65; 105; 114; 24; 5; 32; 1; 40; 2;
  82; 10; 69; 120; 104; 97; 117; 115; 116; 65; 105; 114; 18; 24; 10; 7; 71; 101; 111; 72; 101; 97; 116; 24; 6; 32; 1;
  40; 2; 82; 7; 71; 101; 111; 72; 101; 97; 116; 18; 28; 10; 9; 82; 101; 104; 101; 97; 116; 105; 110; 103; 24; 7; 32;
  1; 40; 2; 82; 9; 82; 101; 104; 101; 97; 116; 105; 110; 103; 18; 32; 10; 11; 75; 105; 116; 99; 104; 101; 110; 72;
  111; 111; 100; 24; 8; 32; 1; 40; 2; 82; 11; 75; 105; 116; 99; 104; 101; 110; 72; 111; 111; 100; 34; 164; 1; 10; 17;
  70; 108; 117; 115; 104; 67; 97; 99; 104; 101; 82; 101; 113; 117; 101; 115; 116; 18; 60; 10; 5; 67; 97; 99; 104;
  101; 24; 1; 32; 1; 40; 14; 50; 38; 46; 99; 111; 109; 102; 111; 46; 97; 112; 105; 46; 70; 108; 117; 115; 104; 67;
  97; 99; 104; 101; 82; 101; 113; 117; 101; 115; 116; 46; 67; 97; 99; 104; 101; 84; 121; 112; 101; 82; 5; 67; 97; 99;
  104; 101; 34; 81; 10; 9; 67; 97; 99; 104; 101; 84; 121; 112; 101; 18; 12; 10; 8; 66; 111; 111; 116; 73; 110; 102;
  111; 16; 0; 18; 8; 10; 4; 70; 97; 110; 115; 16; 1; 18; 9; 10; 5; 84; 101; 109; 112; 115; 16; 2; 18; 12; 10; 8; 80;
  114; 111; 102; 105; 108; 101; 115; 16; 3; 18; 10; 10; 6; 66; 121; 112; 97; 115; 115; 16; 4; 18; 7; 10; 3; 65; 108;
  108; 16; 10; 34; 72; 10; 18; 70; 108; 117; 115; 104; 67; 97; 99; 104; 101; 82; 101; 115; 112; 111; 110; 115; 101;
  18; 24; 10; 7; 83; 117; 99; 99; 101; 115; 115; 24; 1; 32; 1; 40; 8; 82; 7; 83; 117; 99; 99; 101; 115; 115; 18; 24;
  10; 7; 82; 101; 113; 84; 105; 109; 101; 24; 2; 32; 1; 40; 9; 82; 7; 82; 101; 113; 84; 105; 109; 101; 50; 220; 4;
  10; 5; 67; 111; 109; 102; 111; 18; 51; 10; 11; 71; 101; 116; 66; 111; 111; 116; 73; 110; 102; 111; 18; 15; 46; 99;
  111; 109; 102; 111; 46; 97; 112; 105; 46; 78; 111; 111; 112; 26; 19; 46; 99; 111; 109; 102; 111; 46; 97; 112; 105;
  46; 66; 111; 111; 116; 73; 110; 102; 111; 18; 45; 10; 8; 71; 101; 116; 84; 101; 109; 112; 115; 18; 15; 46; 99; 111;
  109; 102; 111; 46; 97; 112; 105; 46; 78; 111; 111; 112; 26; 16; 46; 99; 111; 109; 102; 111; 46; 97; 112; 105; 46;
  84; 101; 109; 112; 115; 18; 47; 10; 9; 71; 101; 116; 66; 121; 112; 97; 115; 115; 18; 15; 46; 99; 111; 109; 102;
  111; 46; 97; 112; 105; 46; 78; 111; 111; 112; 26; 17; 46; 99; 111; 109; 102; 111; 46; 97; 112; 105; 46; 66; 121;
  112; 97; 115; 115; 18; 43; 10; 7; 71; 101; 116; 70; 97; 110; 115; 18; 15; 46; 99; 111; 109; 102; 111; 46; 97; 112;
  105; 46; 78; 111; 111; 112; 26; 15; 46; 99; 111; 109; 102; 111; 46; 97; 112; 105; 46; 70; 97; 110; 115; 18; 57; 10;
  14; 71; 101; 116; 70; 97; 110; 80; 114; 111; 102; 105; 108; 101; 115; 18; 15; 46; 99; 111; 109; 102; 111; 46; 97;
  112; 105; 46; 78; 111; 111; 112; 26; 22; 46; 99; 111; 109; 102; 111; 46; 97; 112; 105; 46; 70; 97; 110; 80; 114;
  111; 102; 105; 108; 101; 115; 18; 47; 10; 9; 71; 101; 116; 69; 114; 114; 111; 114; 115; 18; 15; 46; 99; 111; 109;
  102; 111; 46; 97; 112; 105; 46; 78; 111; 111; 112; 26; 17; 46; 99; 111; 109; 102; 111; 46; 97; 112; 105; 46; 69;
  114; 114; 111; 114; 115; 18; 69; 10; 11; 83; 101; 116; 70; 97; 110; 83; 112; 101; 101; 100; 18; 25; 46; 99; 111;
  109; 102; 111; 46; 97; 112; 105; 46; 70; 97; 110; 83; 112; 101; 101; 100; 84; 97; 114; 103; 101; 116; 26; 27; 46;
  99; 111; 109; 102; 111; 46; 97; 112; 105; 46; 70; 97; 110; 83; 112; 101; 101; 100; 77; 111; 100; 105; 102; 105;
  101; 100; 18; 70; 10; 14; 83; 101; 116; 67; 111; 109; 102; 111; 114; 116; 84; 101; 109; 112; 18; 24; 46; 99; 111;
  109; 102; 111; 46; 97; 112; 105; 46; 67; 111; 109; 102; 111; 114; 116; 84; 97; 114; 103; 101; 116; 26; 26; 46; 99;
  111; 109; 102; 111; 46; 97; 112; 105; 46; 67; 111; 109; 102; 111; 114; 116; 77; 111; 100; 105; 102; 105; 101; 100;
  18; 75; 10; 13; 83; 101; 116; 70; 97; 110; 80; 114; 111; 102; 105; 108; 101; 18; 27; 46; 99; 111; 109; 102; 111;
  46; 97; 112; 105; 46; 70; 97; 110; 80; 114; 111; 102; 105; 108; 101; 84; 97; 114; 103; 101; 116; 26; 29; 46; 99;
  111; 109; 102; 111; 46; 97; 112; 105; 46; 70; 97; 110; 80; 114; 111; 102; 105; 108; 101; 77; 111; 100; 105; 102;
  105; 101; 100; 18; 73; 10; 10; 70; 108; 117; 115; 104; 67; 97; 99; 104; 101; 18; 28; 46; 99; 111; 109; 102; 111;
  46; 97; 112; 105; 46; 70; 108; 117; 115; 104; 67; 97; 99; 104; 101; 82; 101; 113; 117; 101; 115; 116; 26; 29; 46;
  99; 111; 109; 102; 111; 46; 97; 112; 105; 46; 70; 108; 117; 115; 104; 67; 97; 99; 104; 101; 82; 101; 115; 112; 111;
  110; 115; 101; 66; 40; 90; 38; 103; 105; 116; 104; 117; 98; 46; 99; 111; 109; 47; 116; 105; 45; 109; 111; 47; 99;
  111; 109; 102; 111; 47; 114; 112; 99; 47; 99; 111; 109; 102; 111; 59; 99; 111; 109; 102; 111; 98; 6; 112; 114; 111;
  116; 111; 51].

(** comfo_pb2.py:16 AddSerializedFile *)
Definition py_serialized : list byte := [
  10; 11; 99; 111; 109; 102; 111; 46; 112; 114; 111; 116; 111; 18; 9; 99; 111; 109; 102; 111; 46; 97; 112; 105; 34;
  6; 10; 4; 78; 111; 111; 112; 34; 79; 10; 6; 66; 121; 112; 97; 115; 115; 18; 14; 10; 6; 70; 97; 99; 116; 111; 114;
  24; 1; 32; 1; 40; 13; 18; 13; 10; 5; 76; 101; 118; 101; 108; 24; 2; 32; 1; 40; 13; 18; 18; 10; 10; 67; 111; 114;
  114; 101; 99; 116; 105; 111; 110; 24; 3; 32; 1; 40; 13; 18; 18; 10; 10; 83; 117; 109; 109; 101; 114; 77; 111; 100;
  101; 24; 4; 32; 1; 40; 8; 34; 95; 10; 8; 66; 111; 111; 116; 73; 110; 102; 111; 18; 20; 10; 12; 77; 97; 106; 111;
  114; 86; 101; 114; 115; 105; 111; 110; 24; 1; 32; 1; 40; 13; 18; 20; 10; 12; 77; 105; 110; 111; 114; 86; 101; 114;
  115; 105; 111; 110; 24; 2; 32; 1; 40; 13; 18; 19; 10; 11; 66; 101; 116; 97; 86; 101; 114; 115; 105; 111; 110; 24;
  3; 32; 1; 40; 13; 18; 18; 10; 10; 68; 101; 118; 105; 99; 101; 78; 97; 109; 101; 24; 4; 32; 1; 40; 9; 34; 36; 10;
  13; 67; 111; 109; 102; 111; 114; 116; 84; 97; 114; 103; 101; 116; 18; 19; 10; 11; 67; 111; 109; 102; 111; 114; 116;
  84; 101; 109; 112; 24; 1; 32; 1; 40; 13; 34; 94; 10; 15; 67; 111; 109; 102; 111; 114; 116; 77; 111; 100; 105; 102;
  105; 101; 100; 18; 16; 10; 8; 77; 111; 100; 105; 102; 105; 101; 100; 24; 1; 32; 1; 40; 8; 18; 20; 10; 12; 79; 114;
  105; 103; 105; 110; 97; 108; 84; 101; 109; 112; 24; 2; 32; 1; 40; 13; 18; 18; 10; 10; 84; 97; 114; 103; 101; 116;
  84; 101; 109; 112; 24; 3; 32; 1; 40; 13; 18; 15; 10; 7; 82; 101; 113; 84; 105; 109; 101; 24; 4; 32; 1; 40; 9; 34;
  24; 10; 6; 69; 114; 114; 111; 114; 115; 18; 14; 10; 6; 70; 105; 108; 116; 101; 114; 24; 1; 32; 1; 40; 8; 34; 80;
  10; 4; 70; 97; 110; 115; 18; 17; 10; 9; 73; 110; 80; 101; 114; 99; 101; 110; 116; 24; 1; 32; 1; 40; 13; 18; 18; 10;
  10; 79; 117; 116; 80; 101; 114; 99; 101; 110; 116; 24; 2; 32; 1; 40; 13; 18; 15; 10; 7; 73; 110; 83; 112; 101; 101;
  100; 24; 3; 32; 1; 40; 13; 18; 16; 10; 8; 79; 117; 116; 83; 112; 101; 101; 100; 24; 4; 32; 1; 40; 13; 34; 222; 1;
  10; 11; 70; 97; 110; 80; 114; 111; 102; 105; 108; 101; 115; 18; 15; 10; 7; 79; 117; 116; 65; 119; 97; 121; 24; 1;
  32; 1; 40; 13; 18; 14; 10; 6; 79; 117; 116; 76; 111; 119; 24; 2; 32; 1; 40; 13; 18; 14; 10; 6; 79; 117; 116; 77;
  105; 100; 24; 3; 32; 1; 40; 13; 18; 15; 10; 7; 79; 117; 116; 72; 105; 103; 104; 24; 4; 32; 1; 40; 13; 18; 19; 10;
  11; 73; 110; 70; 97; 110; 65; 99; 116; 105; 118; 101; 24; 5; 32; 1; 40; 8; 18; 14; 10; 6; 73; 110; 65; 119; 97;
  121; 24; 6; 32; 1; 40; 13; 18; 13; 10; 5; 73; 110; 76; 111; 119; 24; 7; 32; 1; 40; 13; 18; 13; 10; 5; 73; 110; 77;
  105; 100; 24; 8; 32; 1; 40; 13; 18; 14; 10; 6; 73; 110; 72; 105; 103; 104; 24; 9; 32; 1; 40; 13; 18; 18; 10; 10;
  67; 117; 114; 114; 101; 110; 116; 79; 117; 116; 24; 10; 32; 1; 40; 13; 18; 17; 10; 9; 67; 117; 114; 114; 101; 110;
  116; 73; 110; 24; 11; 32; 1; 40; 13; 18; 19; 10; 11; 67; 117; 114; 114; 101; 110; 116; 77; 111; 100; 101; 24; 12;
  32; 1; 40; 13; 34; 53; 10; 16; 70; 97; 110; 80; 114; 111; 102; 105; 108; 101; 84; 97; 114; 103; 101; 116; 18; 12;
  10; 4; 77; 111; 100; 101; 24; 1; 32; 1; 40; 13; 18; 19; 10; 11; 84; 97; 114; 103; 101; 116; 83; 112; 101; 101; 100;
  24; 2; 32; 1; 40; 13; 34; 99; 10; 18; 70; 97; 110; 80; 114; 111; 102; 105; 108; 101; 77; 111; 100; 105; 102; 105;
  101; 100; 18; 16; 10; 8; 77; 111; 100; 105; 102; 105; 101; 100; 24; 1; 32; 1; 40; 8; 18; 21; 10; 13; 79; 114; 105;
  103; 105; 110; 97; 108; 83; 112; 101; 101; 100; 24; 2; 32; 1; 40; 13; 18; 19; 10; 11; 84; 97; 114; 103; 101; 116;
  83; 112; 101; 101; 100; 24; 3; 32; 1; 40; 13; 18; 15; 10; 7; 82; 101; 113; 84; 105; 109; 101; 24; 4; 32; 1; 40; 9;
  34; 42; 10; 14; 70; 97; 110; 83; 112; 101; 101; 100; 84; 97; 114; 103; 101; 116; 18; 11; 10; 3; 65; 98; 115; 24; 1;
  32; 1; 40; 13; 18; 11; 10; 3; 82; 101; 108; 24; 2; 32; 1; 40; 8; 34; 97; 10; 16; 70; 97; 110; 83; 112; 101; 101;
  100; 77; 111; 100; 105; 102; 105; 101; 100; 18; 16; 10; 8; 77; 111; 100; 105; 102; 105; 101; 100; 24; 1; 32; 1; 40;
  8; 18; 21; 10; 13; 79; 114; 105; 103; 105; 110; 97; 108; 83; 112; 101; 101; 100; 24; 2; 32; 1; 40; 13; 18; 19; 10;
  11; 84; 97; 114; 103; 101; 116; 83; 112; 101; 101; 100; 24; 3; 32; 1; 40; 13; 18; 15; 10; 7; 82; 101; 113; 84; 105;
  109; 101; 24; 4; 32; 1; 40; 9; 34; 150; 1; 10; 5; 72; 111; 117; 114; 115; 18; 15; 10; 7; 70; 97; 110; 65; 119; 97;
  121; 24; 1; 32; 1; 40; 13; 18; 14; 10; 6; 70; 97; 110; 76; 111; 119; 24; 2; 32; 1; 40; 13; 18; 14; 10; 6; 70; 97;
  110; 77; 105; 100; 24; 3; 32; 1; 40; 13; 18; 15; 10; 7; 70; 97; 110; 72; 105; 103; 104; 24; 4; 32; 1; 40; 13; 18;
  20; 10; 12; 70; 114; 111; 115; 116; 80; 114; 111; 116; 101; 99; 116; 24; 5; 32; 1; 40; 13; 18; 17; 10; 9; 82; 101;
  104; 101; 97; 116; 105; 110; 103; 24; 6; 32; 1; 40; 13; 18; 18; 10; 10; 66; 121; 112; 97; 115; 115; 79; 112; 101;
  110; 24; 7; 32; 1; 40; 13; 18; 14; 10; 6; 70; 105; 108; 116; 101; 114; 24; 8; 32; 1; 40; 13; 34; 159; 1; 10; 5; 84;
  101; 109; 112; 115; 18; 15; 10; 7; 67; 111; 109; 102; 111; 114; 116; 24; 1; 32; 1; 40; 2; 18; 18; 10; 10; 79; 117;
  116; 115; 105; 100; 101; 65; 105; 114; 24; 2; 32; 1; 40; 2; 18; 17; 10; 9; 83; 117; 112; 112; 108; 121; 65; 105;
  114; 24; 3; 32; 1; 40; 2; 18; 17; 10; 9; 73; 110; 115; 105; 100; 101; 65; 105; 114; 24; 4; 32; 1; 40; 2; 18; 18;
  10; 10; 69; 120; 104; 97; 117; 115; 116; 65; 105; 114; 24; 5; 32; 1; 40; 2; 18; 15; 10; 7; 71; 101; 111; 72; 101;
  97; 116; 24; 6; 32; 1; 40; 2; 18; 17; 10; 9; 82; 101; 104; 101; 97; 116; 105; 110; 103; 24; 7; 32; 1; 40; 2; 18;
  19; 10; 11; 75; 105; 116; 99; 104; 101; 110; 72; 111; 111; 100; 24; 8; 32; 1; 40; 2; 34; 157; 1; 10; 17; 70; 108;
  117; 115; 104; 67; 97; 99; 104; 101; 82; 101; 113; 117; 101; 115; 116; 18; 53; 10; 5; 67; 97; 99; 104; 101; 24; 1;
  32; 1; 40; 14; 50; 38; 46; 99; 111; 109; 102; 111; 46; 97; 112; 105; 46; 70; 108; 117; 115; 104; 67; 97; 99; 104;
  101; 82; 101; 113; 117; 101; 115; 116; 46; 67; 97; 99; 104; 101; 84; 121; 112; 101; 34; 81; 10; 9; 67; 97; 99; 104;
  101; 84; 121; 112; 101; 18; 12; 10; 8; 66; 111; 111; 116; 73; 110; 102; 111; 16; 0; 18; 8; 10; 4; 70; 97; 110; 115;
  16; 1; 18; 9; 10; 5; 84; 101; 109; 112; 115; 16; 2; 18; 12; 10; 8; 80; 114; 111; 102; 105; 108; 101; 115; 16; 3;
  18; 10; 10; 6; 66; 121; 112; 97; 115; 115; 16; 4; 18; 7; 10; 3; 65; 108; 108; 16; 10; 34; 54; 10; 18; 70; 108; 117;
  115; 104; 67; 97; 99; 104; 101; 82; 101; 115; 112; 111; 110; 115; 101; 18; 15; 10; 7; 83; 117; 99; 99; 101; 115;
  115; 24; 1; 32; 1; 40; 8; 18; 15; 10; 7; 82; 101; 113; 84; 105; 109; 101; 24; 2; 32; 1; 40; 9; 50; 220; 4; 10; 5;
  67; 111; 109; 102; 111; 18; 51; 10; 11; 71; 101; 116; 66; 111; 111; 116; 73; 110; 102; 111; 18; 15; 46; 99; 111;
  109; 102; 111; 46; 97; 112; 105; 46; 78; 111; 111; 112; 26; 19; 46; 99; 111; 109; 102; 111; 46; 97; 112; 105; 46;
  66; 111; 111; 116; 73; 110; 102; 111; 18; 45; 10; 8; 71; 101; 116; 84; 101; 109; 112; 115; 18; 15; 46; 99; 111;
  109; 102; 111; 46; 97; 112; 105; 46; 78; 111; 111; 112; 26; 16; 46; 99; 111; 109; 102; 111; 46; 97; 112; 105; 46;
  84; 101; 109; 112; 115; 18; 47; 10; 9; 71; 101; 116; 66; 121; 112; 97; 115; 115; 18; 15; 46; 99; 111; 109; 102;
  111; 46; 97; 112; 105; 46; 78; 111; 111; 112; 26; 17; 46; 99; 111; 109; 102; 111; 46; 97; 112; 105; 46; 66; 121;
  112; 97; 115; 115; 18; 43; 10; 7; 71; 101; 116; 70; 97; 110; 115; 18; 15; 46; 99; 111; 109; 102; 111; 46; 97; 112;
  105; 46; 78; 111; 111; 112; 26; 15; 46; 99; 111; 109; 102; 111; 46; 97; 112; 105; 46; 70; 97; 110; 115; 18; 57; 10;
  14; 71; 101; 116; 70; 97; 110; 80; 114; 111; 102; 105; 108; 101; 115; 18; 15; 46; 99; 111; 109; 102; 111; 46; 97;
  112; 105; 46; 78; 111; 111; 112; 26; 22; 46; 99; 111; 109; 102; 111; 46; 97; 112; 105; 46; 70; 97; 110; 80; 114;
  111; 102; 105; 108; 101; 115; 18; 47; 10; 9; 71; 101; 116; 69; 114; 114; 111; 114; 115; 18; 15; 46; 99; 111; 109;
  102; 111; 46; 97; 112; 105; 46; 78; 111; 111; 112; 26; 17; 46; 99; 111; 109; 102; 111; 46; 97; 112; 105; 46; 69;
  114; 114; 111; 114; 115; 18; 69; 10; 11; 83; 101; 116; 70; 97; 110; 83; 112; 101; 101; 100; 18; 25; 46; 99; 111;
  109; 102; 111; 46; 97; 112; 105; 46; 70; 97; 110; 83; 112; 101; 101; 100; 84; 97; 114; 103; 101; 116; 26; 27; 46;
  99; 111; 109; 102; 111; 46; 97; 112; 105; 46; 70; 97; 110; 83; 112; 101; 101; 100; 77; 111; 100; 105; 102; 105;
  101; 100; 18; 70; 10; 14; 83; 101; 116; 67; 111; 109; 102; 111; 114; 116; 84; 101; 109; 112; 18; 24; 46; 99; 111;
  109; 102; 111; 46; 97; 112; 105; 46; 67; 111; 109; 102; 111; 114; 116; 84; 97; 114; 103; 101; 116; 26; 26; 46; 99;
  111; 109; 102; 111; 46; 97; 112; 105; 46; 67; 111; 109; 102; 111; 114; 116; 77; 111; 100; 105; 102; 105; 101; 100;
  18; 75; 10; 13; 83; 101; 116; 70; 97; 110; 80; 114; 111; 102; 105; 108; 101; 18; 27; 46; 99; 111; 109; 102; 111;
  46; 97; 112; 105; 46; 70; 97; 110; 80; 114; 111; 102; 105; 108; 101; 84; 97; 114; 103; 101; 116; 26; 29; 46; 99;
  111; 109; 102; 111; 46; 97; 112; 105; 46; 70; 97; 110; 80; 114; 111; 102; 105; 108; 101; 77; 111; 100; 105; 102;
  105; 101; 100; 18; 73; 10; 10; 70; 108; 117; 115; 104; 67; 97; 99; 104; 101; 18; 28; 46; 99; 111; 109; 102; 111;
  46; 97; 112; 105; 46; 70; 108; 117; 115; 104; 67; 97; 99; 104; 101; 82; 101; 113; 117; 101; 115; 116; 26; 29; 46;
  99; 111; 109; 102; 111; 46; 97; 112; 105; 46; 70; 108; 117; 115; 104; 67; 97; 99; 104; 101; 82; 101; 115; 112; 111;
  110; 115; 101; 66; 40; 90; 38; 103; 105; 116; 104; 117; 98; 46; 99; 111; 109; 47; 116; 105; 45; 109; 111; 47; 99;
  111; 109; 102; 111; 47; 114; 112; 99; 47; 99; 111; 109; 102; 111; 59; 99; 111; 109; 102; 111; 98; 6; 112; 114; 111;
  116; 111; 51].

(** comfo.twirp.go:3601-3670 twirpFileDescriptor0 *)
Definition twirpFileDescriptor0 : list byte := [
  31; 139; 8; 0; 0; 0; 0; 0; 2; 255; 204; 86; 207; 110; 35; 197; 19; 254; 141; 255; 197; 46; 39; 89; 111; 255; 208;
  202; 100; 23; 100; 141; 208; 42; 18; 218; 68; 236; 114; 65; 112; 113; 66; 28; 91; 187; 89; 135; 113; 196; 129; 219;
  100; 220; 177; 27; 217; 221; 179; 61; 61; 89; 194; 43; 112; 65; 136; 71; 224; 125; 120; 1; 174; 60; 3; 87; 84; 93;
  61; 51; 109; 28; 69; 28; 185; 88; 254; 190; 170; 174; 63; 221; 95; 87; 15; 116; 19; 181; 190; 81; 71; 169; 86; 70;
  177; 14; 129; 56; 21; 97; 11; 26; 111; 149; 74; 195; 91; 104; 157; 220; 165; 113; 150; 177; 39; 208; 26; 197; 137;
  81; 186; 31; 12; 130; 195; 189; 200; 33; 246; 1; 52; 223; 240; 91; 190; 234; 215; 44; 77; 128; 125; 12; 112; 170;
  180; 230; 137; 17; 74; 246; 235; 214; 228; 49; 104; 159; 229; 235; 53; 215; 23; 106; 206; 251; 141; 65; 112; 216;
  142; 60; 38; 252; 53; 128; 246; 137; 82; 102; 34; 111; 20; 11; 97; 247; 34; 254; 94; 233; 111; 185; 206; 48; 28;
  21; 176; 193; 89; 31; 33; 43; 159; 154; 243; 241; 56; 54; 128; 238; 9; 55; 113; 225; 66; 85; 249; 20; 150; 245; 53;
  191; 21; 9; 127; 27; 175; 169; 172; 78; 228; 49; 225; 103; 176; 119; 138; 123; 164; 205; 85; 172; 23; 220; 96; 200;
  130; 224; 235; 212; 85; 230; 83; 225; 79; 1; 60; 114; 248; 66; 205; 197; 141; 224; 115; 118; 0; 237; 226; 191; 93;
  210; 142; 74; 140; 141; 76; 181; 88; 8; 25; 175; 108; 72; 215; 136; 207; 97; 153; 148; 223; 122; 184; 221; 173; 24;
  214; 135; 157; 136; 191; 187; 18; 101; 15; 5; 12; 7; 208; 58; 211; 90; 105; 58; 79; 177; 50; 92; 187; 10; 28; 10;
  127; 132; 198; 40; 150; 25; 123; 6; 157; 137; 188; 228; 58; 225; 210; 184; 190; 42; 2; 43; 152; 230; 166; 48; 83;
  141; 30; 131; 21; 76; 228; 44; 229; 124; 238; 202; 43; 32; 246; 62; 205; 13; 153; 26; 214; 84; 226; 240; 247; 26;
  116; 71; 177; 188; 212; 234; 70; 172; 120; 134; 81; 166; 185; 25; 190; 143; 239; 92; 5; 5; 196; 234; 167; 185; 121;
  163; 222; 187; 220; 14; 57; 254; 66; 20; 105; 29; 114; 145; 198; 98; 177; 116; 73; 11; 136; 39; 56; 145; 163; 88;
  14; 19; 35; 110; 121; 191; 105; 55; 195; 167; 48; 230; 68; 218; 34; 90; 20; 147; 16; 42; 127; 34; 177; 132; 29; 82;
  190; 5; 196; 98; 1; 237; 130; 197; 252; 54; 134; 77; 223; 41; 98; 216; 236; 120; 79; 114; 173; 185; 52; 211; 220;
  244; 193; 221; 147; 146; 193; 83; 112; 104; 34; 251; 93; 58; 133; 146; 176; 234; 35; 96; 175; 209; 174; 83; 95; 69;
  133; 99; 232; 85; 27; 234; 52; 203; 160; 97; 221; 105; 75; 237; 127; 140; 68; 86; 58; 24; 218; 84; 159; 10; 127; 9;
  128; 85; 161; 254; 149; 148; 63; 129; 189; 66; 182; 126; 216; 77; 242; 159; 169; 235; 91; 169; 31; 144; 243; 231;
  176; 63; 138; 73; 88; 174; 185; 30; 212; 135; 215; 153; 235; 13; 255; 34; 19; 185; 241; 212; 142; 240; 111; 248;
  115; 96; 119; 197; 46; 251; 143; 52; 242; 103; 0; 205; 177; 202; 181; 213; 60; 74; 207; 211; 188; 131; 52; 129;
  165; 167; 121; 66; 142; 247; 52; 79; 200; 69; 242; 53; 239; 32; 206; 152; 145; 86; 153; 185; 212; 202; 240; 196;
  88; 209; 239; 69; 27; 28; 42; 47; 226; 75; 30; 27; 33; 23; 78; 248; 21; 129; 186; 165; 119; 97; 154; 114; 233; 46;
  128; 199; 120; 211; 165; 237; 106; 162; 233; 242; 87; 0; 77; 28; 81; 182; 79; 55; 22; 109; 159; 181; 168; 128; 110;
  182; 100; 98; 206; 135; 66; 219; 94; 107; 145; 199; 96; 101; 179; 60; 77; 87; 119; 104; 174; 91; 115; 69; 208; 220;
  42; 22; 55; 200; 90; 18; 24; 251; 236; 135; 101; 156; 103; 6; 205; 77; 138; 93; 49; 88; 213; 57; 87; 99; 30; 27;
  219; 115; 45; 42; 224; 230; 126; 236; 80; 220; 106; 63; 6; 208; 125; 45; 76; 178; 228; 114; 172; 20; 221; 253; 90;
  228; 83; 225; 111; 1; 60; 30; 173; 242; 108; 121; 26; 39; 75; 30; 241; 119; 57; 207; 12; 251; 10; 154; 22; 219; 61;
  216; 127; 249; 252; 168; 124; 130; 143; 182; 156; 143; 44; 184; 186; 75; 121; 68; 139; 194; 111; 160; 83; 114; 108;
  183; 122; 49; 123; 255; 99; 109; 26; 227; 189; 128; 117; 220; 142; 247; 106; 232; 82; 204; 214; 94; 157; 65; 241;
  182; 247; 26; 108; 7; 234; 195; 213; 170; 7; 225; 24; 152; 159; 56; 75; 149; 204; 56; 110; 203; 44; 79; 18; 158;
  101; 238; 110; 20; 208; 151; 116; 109; 67; 210; 47; 255; 104; 64; 211; 30; 41; 123; 5; 221; 115; 110; 202; 231;
  252; 145; 215; 36; 126; 100; 28; 252; 223; 35; 74; 175; 23; 208; 62; 167; 231; 44; 219; 94; 209; 243; 8; 114; 57;
  134; 14; 230; 160; 111; 149; 45; 255; 199; 126; 6; 242; 249; 20; 79; 218; 216; 167; 110; 203; 221; 39; 172; 199;
  23; 176; 79; 206; 229; 211; 180; 181; 230; 201; 230; 154; 210; 145; 10; 115; 143; 238; 131; 133; 57; 159; 51; 232;
  206; 108; 46; 154; 25; 31; 110; 198; 245; 102; 221; 193; 211; 123; 76; 229; 204; 26; 193; 254; 140; 27; 239; 75;
  132; 245; 61; 247; 141; 175; 152; 131; 131; 109; 75; 25; 231; 53; 236; 205; 252; 214; 217; 211; 123; 27; 117; 145;
  62; 186; 215; 88; 6; 155; 0; 84; 234; 98; 207; 30; 82; 251; 102; 168; 45; 73; 158; 28; 126; 247; 124; 33; 204; 50;
  191; 70; 183; 99; 35; 94; 172; 213; 177; 93; 112; 172; 211; 132; 254; 125; 105; 127; 175; 91; 246; 235; 246; 213;
  223; 1; 0; 0; 255; 255; 5; 214; 101; 239; 236; 10; 0; 0].
(** comfo.twirp.go:3021-3023 ServiceDescriptor *)
Definition serviceDescriptor : list byte * nat := (twirpFileDescriptor0, 0%nat).

(** comfo.pb.go:81-1148 the structs: name and type of each field, its tags protobuf and json (without omitempty). *)
Definition go_structs : list (string * list (string * string * string * Z * string * string)) := [
  ("Noop", []);
  ("Bypass", [("Factor", "uint32", "varint", 1, "Factor", "Factor");
    ("Level", "uint32", "varint", 2, "Level", "Level");
    ("Correction", "uint32", "varint", 3, "Correction", "Correction");
    ("SummerMode", "bool", "varint", 4, "SummerMode", "SummerMode")]);
  ("BootInfo", [("MajorVersion", "uint32", "varint", 1, "MajorVersion", "MajorVersion");
    ("MinorVersion", "uint32", "varint", 2, "MinorVersion", "MinorVersion");
    ("BetaVersion", "uint32", "varint", 3, "BetaVersion", "BetaVersion");
    ("DeviceName", "string", "bytes", 4, "DeviceName", "DeviceName")]);
  ("ComfortTarget", [("ComfortTemp", "uint32", "varint", 1, "ComfortTemp", "ComfortTemp")]);
  ("ComfortModified", [("Modified", "bool", "varint", 1, "Modified", "Modified");
    ("OriginalTemp", "uint32", "varint", 2, "OriginalTemp", "OriginalTemp");
    ("TargetTemp", "uint32", "varint", 3, "TargetTemp", "TargetTemp");
    ("ReqTime", "string", "bytes", 4, "ReqTime", "ReqTime")]);
  ("Errors", [("Filter", "bool", "varint", 1, "Filter", "Filter")]);
  ("Fans", [("InPercent", "uint32", "varint", 1, "InPercent", "InPercent");
    ("OutPercent", "uint32", "varint", 2, "OutPercent", "OutPercent");
    ("InSpeed", "uint32", "varint", 3, "InSpeed", "InSpeed");
    ("OutSpeed", "uint32", "varint", 4, "OutSpeed", "OutSpeed")]);
  ("FanProfiles", [("OutAway", "uint32", "varint", 1, "OutAway", "OutAway");
    ("OutLow", "uint32", "varint", 2, "OutLow", "OutLow");
    ("OutMid", "uint32", "varint", 3, "OutMid", "OutMid");
    ("OutHigh", "uint32", "varint", 4, "OutHigh", "OutHigh");
    ("InFanActive", "bool", "varint", 5, "InFanActive", "InFanActive");
    ("InAway", "uint32", "varint", 6, "InAway", "InAway");
    ("InLow", "uint32", "varint", 7, "InLow", "InLow");
    ("InMid", "uint32", "varint", 8, "InMid", "InMid");
    ("InHigh", "uint32", "varint", 9, "InHigh", "InHigh");
    ("CurrentOut", "uint32", "varint", 10, "CurrentOut", "CurrentOut");
    ("CurrentIn", "uint32", "varint", 11, "CurrentIn", "CurrentIn");
    ("CurrentMode", "uint32", "varint", 12, "CurrentMode", "CurrentMode")]);
  ("FanProfileTarget", [("Mode", "uint32", "varint", 1, "Mode", "Mode");
    ("TargetSpeed", "uint32", "varint", 2, "TargetSpeed", "TargetSpeed")]);
  ("FanProfileModified", [("Modified", "bool", "varint", 1, "Modified", "Modified");
    ("OriginalSpeed", "uint32", "varint", 2, "OriginalSpeed", "OriginalSpeed");
    ("TargetSpeed", "uint32", "varint", 3, "TargetSpeed", "TargetSpeed");
    ("ReqTime", "string", "bytes", 4, "ReqTime", "ReqTime")]);
  ("FanSpeedTarget", [("Abs", "uint32", "varint", 1, "Abs", "Abs");
    ("Rel", "bool", "varint", 2, "Rel", "Rel")]);
  ("FanSpeedModified", [("Modified", "bool", "varint", 1, "Modified", "Modified");
    ("OriginalSpeed", "uint32", "varint", 2, "OriginalSpeed", "OriginalSpeed");
    ("TargetSpeed", "uint32", "varint", 3, "TargetSpeed", "TargetSpeed");
    ("ReqTime", "string", "bytes", 4, "ReqTime", "ReqTime")]);
  ("Hours", [("FanAway", "uint32", "varint", 1, "FanAway", "FanAway");
    ("FanLow", "uint32", "varint", 2, "FanLow", "FanLow");
    ("FanMid", "uint32", "varint", 3, "FanMid", "FanMid");
    ("FanHigh", "uint32", "varint", 4, "FanHigh", "FanHigh");
    ("FrostProtect", "uint32", "varint", 5, "FrostProtect", "FrostProtect");
    ("Reheating", "uint32", "varint", 6, "Reheating", "Reheating");
    ("BypassOpen", "uint32", "varint", 7, "BypassOpen", "BypassOpen");
    ("Filter", "uint32", "varint", 8, "Filter", "Filter")]);
  ("Temps", [("Comfort", "float32", "fixed32", 1, "Comfort", "Comfort");
    ("OutsideAir", "float32", "fixed32", 2, "OutsideAir", "OutsideAir");
    ("SupplyAir", "float32", "fixed32", 3, "SupplyAir", "SupplyAir");
    ("InsideAir", "float32", "fixed32", 4, "InsideAir", "InsideAir");
    ("ExhaustAir", "float32", "fixed32", 5, "ExhaustAir", "ExhaustAir");
    ("GeoHeat", "float32", "fixed32", 6, "GeoHeat", "GeoHeat");
    ("Reheating", "float32", "fixed32", 7, "Reheating", "Reheating");
    ("KitchenHood", "float32", "fixed32", 8, "KitchenHood", "KitchenHood")]);
  ("FlushCacheRequest", [("Cache", "FlushCacheRequest_CacheType", "varint", 1, "Cache", "Cache")]);
  ("FlushCacheResponse", [("Success", "bool", "varint", 1, "Success", "Success");
    ("ReqTime", "string", "bytes", 2, "ReqTime", "ReqTime")])]%string.

(** comfo.pb.go:36-43 FlushCacheRequest_CacheType_name *)
Definition go_cache_names : list (string * Z) := [("BootInfo", 0); ("Fans", 1); ("Temps", 2); ("Profiles", 3); ("Bypass", 4); ("All", 10)]%string.
(** comfo.pb.go:44-51 FlushCacheRequest_CacheType_value *)
Definition go_cache_values : list (string * Z) := [("BootInfo", 0); ("Fans", 1); ("Temps", 2); ("Profiles", 3); ("Bypass", 4); ("All", 10)]%string.

(** comfo.pb.go:1390-1408 file_comfo_proto_goTypes *)
Definition go_types : list string := [
  "FlushCacheRequest_CacheType"; "Noop"; "Bypass"; "BootInfo"; "ComfortTarget"; "ComfortModified"; "Errors"; "Fans";
  "FanProfiles"; "FanProfileTarget"; "FanProfileModified"; "FanSpeedTarget"; "FanSpeedModified"; "Hours"; "Temps";
  "FlushCacheRequest"; "FlushCacheResponse"]%string.
(** comfo.pb.go:1409-1436 file_comfo_proto_depIdxs *)
Definition go_deps : list Z := [0; 1; 1; 1; 1; 1; 1; 11; 4; 9; 15; 3; 14; 2; 7; 8; 6; 12; 5; 10; 16; 11; 1; 1; 1; 0].

(** comfo.twirp.go:34-55 interface Comfo *)
Definition go_interface : list (string * string * string) := [
  ("GetBootInfo", "Noop", "BootInfo");
  ("GetTemps", "Noop", "Temps");
  ("GetBypass", "Noop", "Bypass");
  ("GetFans", "Noop", "Fans");
  ("GetFanProfiles", "Noop", "FanProfiles");
  ("GetErrors", "Noop", "Errors");
  ("SetFanSpeed", "FanSpeedTarget", "FanSpeedModified");
  ("SetComfortTemp", "ComfortTarget", "ComfortModified");
  ("SetFanProfile", "FanProfileTarget", "FanProfileModified");
  ("FlushCache", "FlushCacheRequest", "FlushCacheResponse")]%string.
(** comfo.twirp.go serve<Method>JSON, serve<Method>Protobuf: the types of reqContent and respContent. *)
Definition go_served : list (string * string * string * string) := [
  ("GetBootInfo", "JSON", "Noop", "BootInfo");
  ("GetBootInfo", "Protobuf", "Noop", "BootInfo");
  ("GetTemps", "JSON", "Noop", "Temps");
  ("GetTemps", "Protobuf", "Noop", "Temps");
  ("GetBypass", "JSON", "Noop", "Bypass");
  ("GetBypass", "Protobuf", "Noop", "Bypass");
  ("GetFans", "JSON", "Noop", "Fans");
  ("GetFans", "Protobuf", "Noop", "Fans");
  ("GetFanProfiles", "JSON", "Noop", "FanProfiles");
  ("GetFanProfiles", "Protobuf", "Noop", "FanProfiles");
  ("GetErrors", "JSON", "Noop", "Errors");
  ("GetErrors", "Protobuf", "Noop", "Errors");
  ("SetFanSpeed", "JSON", "FanSpeedTarget", "FanSpeedModified");
  ("SetFanSpeed", "Protobuf", "FanSpeedTarget", "FanSpeedModified");
  ("SetComfortTemp", "JSON", "ComfortTarget", "ComfortModified");
  ("SetComfortTemp", "Protobuf", "ComfortTarget", "ComfortModified");
  ("SetFanProfile", "JSON", "FanProfileTarget", "FanProfileModified");
  ("SetFanProfile", "Protobuf", "FanProfileTarget", "FanProfileModified");
  ("FlushCache", "JSON", "FlushCacheRequest", "FlushCacheResponse");
  ("FlushCache", "Protobuf", "FlushCacheRequest", "FlushCacheResponse")]%string.
(** comfo.twirp.go call<Method> of the two clients: the types of in and out. *)
Definition go_called : list (string * string * string * string) := [
  ("GetBootInfo", "Protobuf", "Noop", "BootInfo");
  ("GetTemps", "Protobuf", "Noop", "Temps");
  ("GetBypass", "Protobuf", "Noop", "Bypass");
  ("GetFans", "Protobuf", "Noop", "Fans");
  ("GetFanProfiles", "Protobuf", "Noop", "FanProfiles");
  ("GetErrors", "Protobuf", "Noop", "Errors");
  ("SetFanSpeed", "Protobuf", "FanSpeedTarget", "FanSpeedModified");
  ("SetComfortTemp", "Protobuf", "ComfortTarget", "ComfortModified");
  ("SetFanProfile", "Protobuf", "FanProfileTarget", "FanProfileModified");
  ("FlushCache", "Protobuf", "FlushCacheRequest", "FlushCacheResponse");
  ("GetBootInfo", "JSON", "Noop", "BootInfo");
  ("GetTemps", "JSON", "Noop", "Temps");
  ("GetBypass", "JSON", "Noop", "Bypass");
  ("GetFans", "JSON", "Noop", "Fans");
  ("GetFanProfiles", "JSON", "Noop", "FanProfiles");
  ("GetErrors", "JSON", "Noop", "Errors");
  ("SetFanSpeed", "JSON", "FanSpeedTarget", "FanSpeedModified");
  ("SetComfortTemp", "JSON", "ComfortTarget", "ComfortModified");
  ("SetFanProfile", "JSON", "FanProfileTarget", "FanProfileModified");
  ("FlushCache", "JSON", "FlushCacheRequest", "FlushCacheResponse")]%string.

(** comfo_twirp.py:91-182 ComfoClient: method, last element of the URL, type of the response *)
Definition py_stub : list (string * string * string) := [
  ("GetBootInfo", "GetBootInfo", "comfo.api.BootInfo");
  ("GetTemps", "GetTemps", "comfo.api.Temps");
  ("GetBypass", "GetBypass", "comfo.api.Bypass");
  ("GetFans", "GetFans", "comfo.api.Fans");
  ("GetFanProfiles", "GetFanProfiles", "comfo.api.FanProfiles");
  ("GetErrors", "GetErrors", "comfo.api.Errors");
  ("SetFanSpeed", "SetFanSpeed", "comfo.api.FanSpeedModified");
  ("SetComfortTemp", "SetComfortTemp", "comfo.api.ComfortModified");
  ("SetFanProfile", "SetFanProfile", "comfo.api.FanProfileModified");
  ("FlushCache", "FlushCache", "comfo.api.FlushCacheResponse")]%string.
(** comfo_twirp.py:13-90 ComfoServer: key, service_name, name, function, input and output of each endpoint *)
Definition py_endpoints : list (string * string * string * string * string * string) := [
  ("GetBootInfo", "Comfo", "GetBootInfo", "GetBootInfo", "comfo.api.Noop", "comfo.api.BootInfo");
  ("GetTemps", "Comfo", "GetTemps", "GetTemps", "comfo.api.Noop", "comfo.api.Temps");
  ("GetBypass", "Comfo", "GetBypass", "GetBypass", "comfo.api.Noop", "comfo.api.Bypass");
  ("GetFans", "Comfo", "GetFans", "GetFans", "comfo.api.Noop", "comfo.api.Fans");
  ("GetFanProfiles", "Comfo", "GetFanProfiles", "GetFanProfiles", "comfo.api.Noop", "comfo.api.FanProfiles");
  ("GetErrors", "Comfo", "GetErrors", "GetErrors", "comfo.api.Noop", "comfo.api.Errors");
  ("SetFanSpeed", "Comfo", "SetFanSpeed", "SetFanSpeed", "comfo.api.FanSpeedTarget", "comfo.api.FanSpeedModified");
  ("SetComfortTemp", "Comfo", "SetComfortTemp", "SetComfortTemp", "comfo.api.ComfortTarget", "comfo.api.ComfortModified");
  ("SetFanProfile", "Comfo", "SetFanProfile", "SetFanProfile", "comfo.api.FanProfileTarget", "comfo.api.FanProfileModified");
  ("FlushCache", "Comfo", "FlushCache", "FlushCache", "comfo.api.FlushCacheRequest", "comfo.api.FlushCacheResponse")]%string.
