(** * The keys of the tagger's tables, as shipped

    Generated from jieba/posseg/prob_trans.py and jieba/posseg/char_state_tab.py
    (keys only, in the order of the files; the log probabilities are left
    arbitrary, see [DataPossegOk]).  States are numbered in the order of the keys
    of prob_trans.py: letter B, E, M, S, and for each letter the 64 tags. *)
From Verif Require Import PyBase.
Local Open Scope N_scope.

(** the tags, in order *)
Definition pos_tags : list str :=
  [[97];
   [97; 100];
   [97; 103];
   [97; 110];
   [98];
   [98; 103];
   [99];
   [100];
   [100; 102];
   [100; 103];
   [101];
   [101; 110];
   [102];
   [103];
   [104];
   [105];
   [105; 110];
   [106];
   [106; 110];
   [107];
   [108];
   [108; 110];
   [109];
   [109; 103];
   [109; 113];
   [110];
   [110; 103];
   [110; 114];
   [110; 114; 102; 103];
   [110; 114; 116];
   [110; 115];
   [110; 116];
   [110; 122];
   [111];
   [112];
   [113];
   [113; 101];
   [113; 103];
   [114];
   [114; 103];
   [114; 114];
   [114; 122];
   [115];
   [116];
   [116; 103];
   [117];
   [117; 100];
   [117; 103];
   [117; 106];
   [117; 108];
   [117; 118];
   [117; 122];
   [118];
   [118; 100];
   [118; 103];
   [118; 105];
   [118; 110];
   [118; 113];
   [119];
   [120];
   [121];
   [121; 103];
   [122];
   [122; 103]].

(** prob_trans.py: the targets of the transitions of each state *)
Definition pos_trans_rows : list (list N) :=
  [[64; 128];
   [65; 129];
   [];
   [67];
   [68; 132];
   [];
   [70; 134];
   [71; 135];
   [72];
   [];
   [74; 138];
   [];
   [76; 140];
   [];
   [78];
   [79; 143];
   [144];
   [81; 145];
   [146];
   [];
   [84; 148];
   [149];
   [86; 150];
   [];
   [88; 152];
   [89; 153];
   [];
   [91; 155];
   [92; 156];
   [93; 157];
   [94; 158];
   [95; 159];
   [96; 160];
   [97; 161];
   [98; 162];
   [99; 163];
   [100];
   [];
   [102; 166];
   [];
   [104; 168];
   [105];
   [106; 170];
   [107; 171];
   [];
   [109; 173];
   [];
   [];
   [];
   [];
   [];
   [];
   [116; 180];
   [117];
   [];
   [183];
   [120; 184];
   [121];
   [];
   [];
   [124; 188];
   [];
   [126; 190];
   [];
   [0; 1; 3; 4; 6; 7; 8; 10; 12; 15; 17; 20; 22; 24; 25; 27; 28; 29; 30; 31; 32; 33; 34; 35; 38; 40; 41; 42; 43; 45; 52; 53; 55; 56; 57; 60; 62; 192; 193; 194; 195; 196; 198; 199; 201; 202; 204; 205; 206; 209; 211; 214; 215; 217; 218; 219; 225; 226; 227; 230; 231; 236; 237; 238; 239; 240; 241; 242; 243; 244; 246; 248; 251; 252];
   [0; 1; 3; 4; 6; 7; 8; 12; 15; 17; 20; 22; 24; 25; 27; 28; 29; 30; 31; 32; 33; 34; 35; 38; 42; 43; 45; 52; 53; 55; 56; 60; 62; 192; 193; 194; 196; 198; 199; 201; 202; 204; 205; 206; 209; 211; 214; 217; 218; 219; 225; 226; 227; 230; 236; 237; 238; 239; 240; 241; 242; 243; 244; 246; 251; 252];
   [];
   [0; 1; 3; 4; 6; 7; 8; 12; 15; 17; 20; 22; 24; 25; 27; 28; 29; 30; 31; 32; 33; 34; 35; 38; 42; 43; 45; 52; 53; 55; 56; 60; 62; 192; 193; 194; 196; 198; 199; 201; 202; 204; 205; 206; 209; 211; 214; 217; 218; 219; 226; 227; 230; 236; 237; 238; 239; 240; 241; 242; 243; 244; 246; 251; 252];
   [0; 1; 3; 4; 6; 7; 12; 14; 15; 17; 20; 21; 22; 24; 25; 27; 28; 29; 30; 31; 32; 33; 34; 35; 38; 41; 42; 43; 45; 52; 53; 56; 57; 60; 62; 192; 194; 196; 197; 198; 199; 201; 204; 205; 206; 209; 211; 214; 217; 218; 219; 225; 226; 227; 230; 236; 237; 238; 239; 240; 241; 242; 243; 244; 246; 248; 251; 252; 253];
   [];
   [0; 1; 3; 4; 6; 7; 8; 10; 12; 14; 15; 16; 17; 20; 22; 24; 25; 27; 28; 29; 30; 31; 32; 33; 34; 35; 38; 40; 41; 42; 43; 45; 52; 53; 56; 57; 60; 62; 192; 193; 194; 195; 196; 198; 199; 201; 202; 204; 205; 206; 209; 211; 214; 215; 217; 218; 219; 223; 225; 226; 227; 230; 231; 236; 237; 238; 239; 240; 241; 242; 243; 244; 246; 248; 251; 252];
   [0; 1; 3; 4; 6; 7; 8; 10; 12; 15; 17; 20; 22; 24; 25; 27; 28; 29; 30; 31; 32; 33; 34; 35; 38; 41; 42; 43; 45; 52; 53; 55; 56; 57; 60; 62; 192; 193; 194; 196; 198; 199; 201; 202; 204; 205; 206; 209; 211; 214; 215; 217; 218; 219; 225; 226; 227; 230; 231; 236; 237; 238; 239; 240; 241; 242; 243; 244; 246; 248; 251; 252];
   [0; 1; 3; 4; 6; 7; 8; 12; 15; 17; 20; 22; 24; 25; 27; 28; 29; 30; 34; 35; 38; 42; 43; 45; 52; 53; 56; 62; 192; 194; 196; 198; 199; 204; 209; 214; 217; 218; 219; 226; 227; 230; 237; 240; 241; 242; 244; 246; 252];
   [];
   [0; 6; 7; 10; 17; 20; 22; 24; 25; 27; 30; 32; 34; 35; 38; 41; 42; 43; 52; 56; 192; 196; 198; 199; 202; 209; 214; 217; 218; 219; 226; 227; 230; 237; 239; 240; 241; 242; 244; 246; 252];
   [];
   [0; 1; 3; 4; 6; 7; 8; 12; 15; 17; 20; 22; 24; 25; 27; 28; 29; 30; 31; 32; 33; 34; 35; 38; 40; 41; 42; 43; 45; 52; 53; 56; 57; 60; 62; 192; 193; 194; 195; 196; 198; 199; 201; 202; 204; 205; 206; 209; 211; 214; 215; 217; 218; 219; 225; 226; 227; 230; 231; 235; 236; 237; 238; 239; 240; 241; 242; 243; 244; 246; 248; 251; 252];
   [];
   [7; 25; 32; 52; 196; 217; 240];
   [0; 1; 3; 4; 6; 7; 8; 10; 12; 15; 17; 20; 22; 24; 25; 27; 28; 29; 30; 31; 32; 33; 34; 35; 38; 41; 42; 43; 45; 52; 53; 56; 60; 62; 192; 193; 194; 195; 196; 198; 199; 201; 202; 204; 205; 206; 209; 211; 214; 217; 218; 219; 225; 226; 227; 230; 231; 236; 237; 238; 239; 240; 241; 242; 243; 244; 246; 248; 251; 252];
   [7; 22; 25; 27; 29; 32; 198; 199; 226; 236; 244; 252];
   [0; 1; 3; 4; 6; 7; 8; 12; 15; 17; 20; 22; 24; 25; 27; 28; 29; 30; 31; 32; 33; 34; 35; 38; 41; 42; 43; 45; 52; 53; 56; 57; 60; 62; 192; 193; 194; 196; 198; 199; 201; 202; 204; 205; 206; 209; 211; 214; 217; 218; 219; 225; 226; 227; 230; 236; 237; 238; 239; 240; 241; 242; 243; 244; 246; 248; 251; 252; 253];
   [25; 56; 214; 240];
   [];
   [0; 1; 3; 4; 6; 7; 8; 10; 12; 14; 15; 17; 20; 22; 24; 25; 27; 28; 29; 30; 31; 32; 33; 34; 35; 38; 41; 42; 43; 45; 52; 53; 55; 56; 60; 62; 192; 193; 194; 196; 198; 199; 201; 202; 204; 205; 206; 209; 211; 214; 215; 217; 218; 219; 225; 226; 227; 230; 236; 237; 238; 239; 240; 241; 242; 243; 244; 246; 248; 251; 252];
   [0; 7; 25; 30; 31; 43; 52; 198; 199; 204; 217; 226; 240; 244];
   [0; 1; 3; 4; 6; 7; 8; 10; 12; 14; 15; 17; 20; 22; 24; 25; 27; 28; 29; 30; 31; 32; 33; 34; 35; 38; 40; 41; 42; 43; 45; 52; 53; 56; 57; 60; 62; 192; 193; 194; 195; 196; 197; 198; 199; 201; 202; 204; 205; 206; 209; 211; 214; 215; 217; 218; 219; 223; 225; 226; 227; 230; 231; 236; 237; 238; 239; 240; 241; 242; 243; 244; 246; 248; 251; 252];
   [];
   [0; 1; 3; 4; 6; 7; 12; 15; 17; 20; 22; 24; 25; 27; 28; 29; 30; 31; 32; 33; 34; 35; 38; 42; 43; 45; 52; 53; 56; 60; 62; 192; 194; 196; 198; 199; 201; 204; 205; 206; 209; 211; 214; 217; 218; 219; 225; 226; 227; 230; 236; 237; 238; 239; 240; 241; 242; 243; 244; 246; 251; 252];
   [0; 1; 3; 4; 6; 7; 8; 10; 12; 14; 15; 16; 17; 20; 21; 22; 24; 25; 27; 28; 29; 30; 31; 32; 33; 34; 35; 38; 40; 41; 42; 43; 45; 52; 53; 55; 56; 57; 60; 62; 192; 193; 194; 195; 196; 198; 199; 201; 202; 204; 205; 206; 209; 211; 214; 215; 217; 218; 219; 223; 225; 226; 227; 230; 231; 235; 236; 237; 238; 239; 240; 241; 242; 243; 244; 246; 248; 251; 252];
   [];
   [0; 1; 3; 4; 6; 7; 8; 10; 12; 15; 16; 17; 20; 22; 24; 25; 27; 28; 29; 30; 31; 32; 33; 34; 35; 38; 40; 41; 42; 43; 45; 52; 53; 56; 57; 60; 62; 192; 193; 194; 195; 196; 198; 199; 201; 202; 204; 205; 206; 209; 211; 214; 215; 217; 218; 219; 223; 225; 226; 227; 230; 231; 235; 236; 237; 238; 239; 240; 241; 242; 243; 244; 246; 248; 251; 252; 253; 255];
   [0; 1; 3; 4; 6; 7; 8; 12; 15; 17; 20; 22; 24; 25; 27; 28; 29; 30; 31; 32; 33; 34; 35; 38; 41; 42; 43; 45; 52; 53; 56; 60; 62; 192; 194; 196; 198; 199; 201; 202; 204; 205; 206; 209; 211; 214; 215; 217; 218; 219; 226; 227; 230; 236; 237; 238; 239; 240; 241; 242; 243; 244; 246; 248; 251; 252];
   [0; 1; 3; 4; 6; 7; 8; 12; 15; 17; 20; 22; 24; 25; 27; 28; 29; 30; 31; 32; 33; 34; 35; 38; 41; 42; 43; 45; 52; 53; 56; 57; 60; 62; 192; 193; 194; 195; 196; 198; 199; 201; 202; 204; 205; 206; 209; 211; 214; 215; 217; 218; 219; 225; 226; 227; 230; 231; 236; 237; 238; 239; 240; 241; 242; 243; 244; 246; 248; 251; 252; 253];
   [0; 1; 3; 4; 6; 7; 8; 10; 12; 15; 17; 20; 21; 22; 24; 25; 27; 28; 29; 30; 31; 32; 33; 34; 35; 38; 41; 42; 43; 45; 52; 53; 55; 56; 57; 60; 62; 192; 193; 194; 196; 198; 199; 201; 202; 204; 205; 206; 209; 211; 214; 215; 217; 218; 219; 225; 226; 227; 230; 231; 235; 236; 237; 238; 239; 240; 241; 242; 243; 244; 246; 248; 251; 252];
   [0; 1; 3; 4; 6; 7; 8; 12; 15; 17; 20; 21; 22; 24; 25; 27; 28; 29; 30; 31; 32; 34; 35; 38; 41; 42; 43; 45; 52; 53; 56; 60; 62; 192; 194; 196; 198; 199; 201; 202; 204; 205; 206; 209; 211; 214; 217; 218; 219; 226; 227; 230; 231; 236; 237; 238; 239; 240; 241; 242; 243; 244; 246; 251; 252];
   [0; 1; 3; 4; 6; 7; 8; 12; 15; 17; 20; 22; 24; 25; 27; 28; 29; 30; 31; 32; 33; 34; 35; 38; 41; 42; 43; 45; 52; 53; 55; 56; 60; 62; 192; 193; 194; 195; 196; 198; 199; 201; 202; 204; 205; 206; 209; 211; 214; 215; 217; 218; 219; 225; 226; 227; 230; 231; 236; 237; 238; 239; 240; 241; 242; 243; 244; 246; 248; 251; 252];
   [0; 1; 3; 4; 6; 7; 10; 12; 15; 17; 20; 22; 24; 25; 27; 29; 30; 32; 33; 34; 35; 38; 42; 43; 52; 56; 62; 192; 194; 198; 199; 201; 202; 204; 209; 214; 217; 218; 219; 225; 226; 227; 230; 236; 237; 238; 239; 240; 241; 242; 243; 244; 246; 251; 252];
   [0; 1; 3; 4; 6; 7; 12; 15; 17; 20; 22; 24; 25; 27; 28; 29; 30; 31; 32; 33; 34; 35; 38; 40; 41; 42; 43; 45; 52; 53; 56; 62; 192; 194; 196; 198; 199; 201; 204; 205; 206; 209; 211; 214; 215; 217; 218; 219; 223; 225; 226; 227; 230; 236; 237; 238; 239; 240; 241; 242; 243; 244; 246; 248; 251; 252];
   [0; 1; 3; 4; 6; 7; 12; 15; 17; 20; 22; 24; 25; 27; 28; 29; 30; 31; 32; 33; 34; 35; 38; 42; 43; 45; 52; 53; 56; 60; 62; 192; 194; 196; 198; 199; 201; 204; 205; 206; 209; 211; 214; 217; 218; 219; 225; 226; 227; 230; 231; 236; 237; 238; 239; 240; 241; 242; 243; 244; 246; 248; 251; 252];
   [25; 227];
   [];
   [0; 1; 3; 4; 6; 7; 8; 10; 12; 14; 15; 17; 20; 22; 24; 25; 27; 28; 29; 30; 31; 32; 33; 34; 35; 38; 40; 41; 42; 43; 45; 52; 53; 56; 57; 60; 62; 192; 193; 194; 195; 196; 198; 199; 201; 202; 204; 205; 206; 209; 211; 214; 215; 217; 218; 219; 223; 225; 226; 227; 230; 231; 235; 236; 237; 238; 239; 240; 241; 242; 243; 244; 246; 248; 251; 252];
   [];
   [0; 4; 6; 7; 8; 12; 15; 22; 27; 29; 30; 38; 40; 42; 45; 52; 56; 62; 192; 196; 198; 199; 214; 217; 219; 226; 230; 240; 241; 244];
   [0; 1; 3; 4; 6; 7; 12; 15; 17; 20; 22; 25; 27; 28; 29; 30; 31; 32; 34; 38; 41; 42; 43; 52; 56; 62; 192; 194; 196; 198; 199; 204; 205; 209; 214; 217; 218; 219; 226; 227; 229; 230; 236; 237; 238; 240; 244; 246];
   [0; 1; 3; 4; 6; 7; 8; 10; 12; 15; 17; 20; 22; 24; 25; 27; 28; 29; 30; 31; 32; 33; 34; 35; 38; 41; 42; 43; 45; 52; 53; 56; 57; 60; 62; 192; 193; 194; 195; 196; 198; 199; 201; 202; 204; 205; 206; 209; 211; 214; 217; 218; 219; 223; 225; 226; 227; 230; 236; 237; 238; 239; 240; 241; 242; 243; 244; 246; 248; 251; 252];
   [0; 1; 3; 4; 6; 7; 8; 10; 12; 14; 15; 16; 17; 20; 21; 22; 24; 25; 27; 28; 29; 30; 31; 32; 33; 34; 35; 38; 40; 41; 42; 43; 45; 52; 53; 56; 57; 60; 62; 192; 193; 194; 195; 196; 198; 199; 201; 202; 204; 205; 206; 209; 211; 214; 215; 217; 218; 219; 223; 225; 226; 227; 230; 235; 236; 237; 238; 239; 240; 241; 242; 243; 244; 246; 248; 251; 252];
   [];
   [0; 1; 3; 4; 6; 7; 8; 10; 12; 15; 17; 20; 22; 24; 25; 27; 28; 29; 30; 31; 32; 33; 34; 35; 38; 41; 42; 43; 45; 52; 53; 56; 60; 62; 192; 194; 195; 196; 198; 199; 201; 202; 204; 205; 206; 209; 211; 214; 215; 217; 218; 219; 225; 226; 227; 230; 236; 237; 238; 239; 240; 241; 242; 244; 246; 248; 251; 252];
   [];
   [];
   [];
   [];
   [];
   [];
   [0; 1; 3; 4; 6; 7; 8; 10; 12; 14; 15; 16; 17; 20; 21; 22; 24; 25; 27; 28; 29; 30; 31; 32; 33; 34; 35; 36; 38; 40; 41; 42; 43; 45; 52; 53; 55; 56; 57; 60; 62; 192; 193; 194; 195; 196; 197; 198; 199; 201; 202; 204; 205; 206; 209; 211; 214; 215; 217; 218; 219; 223; 225; 226; 227; 230; 231; 235; 236; 237; 238; 239; 240; 241; 242; 243; 244; 246; 248; 251; 252];
   [0; 1; 3; 4; 6; 7; 8; 12; 15; 17; 20; 22; 25; 27; 29; 30; 31; 32; 34; 35; 38; 42; 43; 45; 52; 53; 56; 60; 62; 192; 198; 199; 204; 205; 209; 211; 214; 217; 218; 219; 226; 227; 230; 237; 238; 239; 240; 241; 242; 243; 244; 246; 252];
   [];
   [0; 4; 7; 15; 22; 25; 30; 38; 42; 43; 52; 56; 192; 199; 204; 209; 217; 226; 227; 230; 244];
   [0; 1; 3; 4; 6; 7; 8; 10; 12; 14; 15; 17; 18; 20; 22; 24; 25; 27; 28; 29; 30; 31; 32; 33; 34; 35; 38; 40; 41; 42; 43; 45; 52; 53; 56; 57; 60; 62; 192; 193; 194; 196; 198; 199; 201; 202; 204; 205; 206; 209; 211; 214; 215; 217; 218; 219; 225; 226; 227; 230; 231; 235; 236; 237; 238; 239; 240; 241; 242; 243; 244; 246; 248; 251; 252];
   [0; 1; 3; 4; 6; 7; 12; 15; 20; 22; 25; 27; 28; 30; 31; 32; 35; 38; 42; 43; 52; 56; 60; 192; 198; 199; 204; 209; 214; 217; 218; 219; 226; 227; 230; 236; 239; 240; 241; 244; 252];
   [];
   [];
   [0; 1; 3; 4; 6; 7; 12; 15; 17; 20; 22; 24; 25; 27; 28; 29; 30; 31; 32; 33; 34; 35; 38; 41; 42; 43; 45; 52; 56; 60; 62; 192; 194; 196; 198; 199; 201; 202; 204; 205; 209; 214; 217; 218; 219; 226; 227; 230; 236; 237; 238; 239; 240; 241; 242; 243; 244; 246; 251; 252];
   [];
   [0; 1; 3; 4; 6; 7; 10; 12; 15; 17; 20; 22; 24; 25; 27; 28; 29; 30; 31; 32; 33; 34; 35; 38; 41; 42; 43; 45; 52; 53; 56; 60; 62; 192; 194; 195; 196; 198; 199; 201; 202; 204; 205; 206; 209; 211; 214; 217; 218; 219; 223; 225; 226; 227; 230; 236; 237; 238; 239; 240; 241; 242; 243; 244; 246; 248; 251; 252];
   [];
   [64; 128];
   [65; 129];
   [];
   [];
   [68; 132];
   [];
   [70; 134];
   [71; 135];
   [];
   [];
   [74];
   [];
   [76];
   [];
   [];
   [79; 143];
   [80; 144];
   [81; 145];
   [82];
   [];
   [84; 148];
   [85; 149];
   [86; 150];
   [];
   [88; 152];
   [89; 153];
   [];
   [91; 155];
   [92; 156];
   [93; 157];
   [94; 158];
   [95; 159];
   [96; 160];
   [97; 161];
   [98];
   [99; 163];
   [];
   [];
   [102; 166];
   [];
   [104];
   [];
   [106; 170];
   [107; 171];
   [];
   [109];
   [];
   [];
   [];
   [];
   [];
   [];
   [116; 180];
   [];
   [];
   [119];
   [120; 184];
   [];
   [];
   [];
   [124];
   [];
   [126; 190];
   [];
   [0; 1; 3; 4; 6; 7; 8; 10; 12; 15; 16; 17; 20; 22; 24; 25; 27; 28; 29; 30; 31; 32; 33; 34; 35; 38; 41; 42; 43; 45; 52; 53; 56; 60; 62; 192; 193; 194; 195; 196; 198; 199; 201; 202; 204; 205; 206; 209; 211; 214; 215; 217; 218; 219; 223; 225; 226; 227; 230; 231; 235; 236; 237; 238; 239; 240; 241; 242; 243; 244; 246; 248; 251; 252; 255];
   [0; 1; 4; 6; 7; 12; 15; 17; 20; 22; 24; 25; 27; 29; 30; 32; 34; 38; 42; 43; 45; 52; 56; 62; 192; 193; 194; 198; 199; 201; 204; 205; 206; 209; 211; 214; 217; 218; 219; 226; 227; 230; 236; 237; 238; 240; 241; 242; 244; 246; 251; 252];
   [0; 1; 3; 4; 6; 7; 8; 12; 15; 17; 20; 22; 24; 25; 27; 28; 29; 30; 32; 33; 34; 35; 38; 41; 42; 43; 45; 52; 53; 56; 60; 62; 192; 193; 194; 195; 196; 197; 198; 199; 201; 202; 204; 205; 206; 209; 211; 214; 215; 217; 218; 219; 225; 226; 227; 230; 231; 236; 237; 238; 239; 240; 241; 242; 243; 244; 246; 251; 252; 253; 255];
   [0; 3; 6; 7; 15; 20; 22; 25; 27; 30; 32; 38; 43; 52; 56; 60; 62; 192; 194; 195; 196; 198; 199; 204; 205; 209; 211; 214; 217; 218; 219; 226; 227; 230; 236; 237; 239; 240; 241; 242; 244; 246; 252];
   [0; 1; 3; 4; 6; 7; 8; 10; 12; 15; 17; 20; 22; 24; 25; 27; 28; 29; 30; 31; 32; 33; 34; 35; 38; 41; 42; 43; 45; 52; 53; 56; 60; 62; 192; 193; 194; 196; 198; 199; 201; 202; 204; 205; 206; 209; 211; 214; 215; 217; 218; 219; 225; 226; 227; 230; 231; 236; 237; 238; 239; 240; 241; 242; 243; 244; 246; 248; 251; 252; 255];
   [25; 27; 192; 194; 198; 201; 204; 205; 209; 217; 218; 219; 227; 230; 244; 246; 251; 252];
   [0; 1; 3; 4; 6; 7; 8; 12; 14; 15; 17; 20; 22; 24; 25; 27; 28; 29; 30; 31; 32; 33; 34; 35; 38; 40; 41; 42; 43; 45; 52; 53; 56; 57; 60; 62; 192; 193; 194; 195; 196; 197; 198; 199; 201; 202; 204; 205; 206; 209; 211; 214; 215; 217; 218; 219; 223; 225; 226; 227; 230; 231; 235; 236; 237; 238; 239; 240; 241; 242; 243; 244; 246; 248; 251; 252];
   [0; 1; 3; 4; 6; 7; 8; 10; 12; 14; 15; 17; 20; 22; 24; 25; 27; 28; 29; 30; 31; 32; 33; 34; 35; 38; 41; 42; 43; 45; 52; 53; 55; 56; 57; 60; 62; 192; 193; 194; 196; 197; 198; 199; 201; 202; 204; 205; 206; 209; 211; 214; 215; 217; 218; 219; 225; 226; 227; 230; 231; 235; 236; 237; 238; 239; 240; 241; 242; 243; 244; 246; 248; 251; 252; 253];
   [];
   [0; 1; 3; 4; 6; 7; 12; 15; 17; 20; 22; 25; 27; 29; 30; 32; 33; 34; 38; 42; 43; 52; 56; 62; 192; 194; 195; 196; 198; 199; 201; 202; 204; 205; 206; 209; 211; 214; 217; 218; 219; 225; 226; 227; 230; 236; 237; 238; 239; 240; 241; 242; 243; 244; 246; 251; 252; 253];
   [0; 1; 3; 4; 6; 7; 8; 10; 12; 15; 20; 22; 24; 25; 27; 28; 29; 30; 32; 33; 34; 38; 41; 42; 43; 45; 52; 56; 60; 62; 192; 193; 194; 196; 198; 199; 202; 204; 205; 209; 211; 214; 217; 218; 219; 225; 226; 227; 230; 236; 237; 238; 239; 240; 241; 242; 243; 244; 246; 248; 251; 252];
   [];
   [0; 1; 3; 4; 6; 7; 8; 10; 12; 15; 17; 20; 22; 24; 25; 27; 28; 29; 30; 31; 32; 33; 34; 35; 38; 40; 41; 42; 43; 45; 52; 53; 55; 56; 57; 60; 62; 192; 193; 194; 195; 196; 198; 199; 201; 202; 204; 205; 206; 209; 211; 214; 215; 217; 218; 219; 225; 226; 227; 230; 231; 236; 237; 238; 239; 240; 241; 242; 243; 244; 246; 248; 251; 252; 253];
   [0; 1; 3; 4; 6; 7; 8; 12; 15; 17; 20; 22; 24; 25; 27; 28; 29; 30; 31; 32; 33; 34; 35; 38; 41; 42; 43; 45; 52; 56; 60; 62; 192; 193; 194; 196; 197; 198; 199; 201; 202; 204; 205; 206; 209; 211; 214; 215; 217; 218; 219; 223; 225; 226; 227; 230; 231; 236; 237; 238; 239; 240; 241; 242; 243; 244; 246; 248; 251; 252; 255];
   [0; 1; 3; 4; 6; 7; 12; 15; 17; 20; 22; 24; 25; 27; 28; 29; 30; 31; 32; 34; 35; 38; 41; 42; 43; 45; 52; 53; 56; 62; 192; 193; 194; 196; 198; 199; 201; 202; 204; 205; 206; 209; 211; 214; 217; 218; 219; 226; 227; 230; 231; 236; 237; 238; 239; 240; 241; 242; 243; 244; 246; 251; 252];
   [];
   [];
   [0; 1; 3; 4; 6; 7; 8; 10; 12; 15; 17; 20; 22; 24; 25; 27; 28; 29; 30; 31; 32; 33; 34; 35; 38; 41; 42; 43; 45; 52; 53; 56; 60; 62; 192; 193; 194; 195; 196; 197; 198; 199; 201; 202; 204; 205; 206; 209; 211; 214; 215; 217; 218; 219; 224; 225; 226; 227; 230; 231; 236; 237; 238; 239; 240; 241; 242; 243; 244; 246; 248; 251; 252; 253];
   [];
   [0; 1; 3; 4; 6; 7; 8; 12; 14; 15; 17; 20; 22; 24; 25; 27; 28; 29; 30; 31; 32; 33; 34; 35; 38; 42; 43; 45; 52; 53; 56; 57; 60; 62; 192; 193; 194; 196; 198; 199; 201; 202; 204; 205; 206; 209; 211; 214; 215; 217; 218; 219; 225; 226; 227; 230; 236; 237; 238; 239; 240; 241; 242; 243; 244; 246; 248; 251; 252];
   [];
   [];
   [0; 1; 3; 4; 6; 7; 8; 10; 12; 14; 15; 17; 20; 21; 22; 24; 25; 27; 28; 29; 30; 31; 32; 33; 34; 35; 36; 38; 41; 42; 43; 45; 52; 53; 56; 60; 62; 192; 193; 194; 195; 196; 197; 198; 199; 201; 202; 204; 205; 206; 209; 211; 214; 215; 217; 218; 219; 223; 225; 226; 227; 230; 231; 236; 237; 238; 239; 240; 241; 242; 243; 244; 246; 248; 251; 252];
   [0; 4; 6; 7; 15; 20; 22; 25; 27; 29; 30; 31; 32; 33; 34; 38; 42; 43; 52; 192; 194; 196; 198; 199; 201; 204; 205; 209; 211; 214; 215; 217; 218; 219; 226; 227; 230; 231; 236; 237; 238; 240; 242; 244; 246; 251];
   [];
   [0; 1; 3; 4; 6; 7; 8; 10; 12; 14; 15; 16; 17; 20; 22; 24; 25; 27; 28; 29; 30; 31; 32; 33; 34; 35; 38; 41; 42; 43; 45; 52; 53; 55; 56; 57; 60; 62; 192; 193; 194; 195; 196; 197; 198; 199; 201; 202; 204; 205; 206; 209; 211; 214; 215; 217; 218; 219; 223; 225; 226; 227; 230; 231; 236; 237; 238; 239; 240; 241; 242; 243; 244; 246; 248; 251; 252; 255];
   [0; 1; 3; 4; 6; 7; 8; 10; 12; 15; 17; 20; 22; 24; 25; 27; 28; 29; 30; 31; 32; 33; 34; 35; 38; 40; 41; 42; 43; 45; 52; 53; 56; 57; 60; 62; 192; 193; 194; 195; 196; 197; 198; 199; 201; 202; 204; 205; 206; 209; 211; 214; 215; 217; 218; 219; 223; 225; 226; 227; 230; 231; 235; 236; 237; 238; 239; 240; 241; 242; 243; 244; 246; 248; 251; 252; 253; 255];
   [0; 1; 3; 4; 6; 7; 8; 10; 12; 15; 17; 20; 22; 24; 25; 27; 28; 29; 30; 31; 32; 33; 34; 35; 38; 40; 41; 42; 43; 45; 52; 53; 56; 60; 62; 192; 193; 194; 195; 196; 197; 198; 199; 201; 202; 204; 205; 206; 209; 211; 214; 215; 217; 218; 219; 223; 225; 226; 227; 230; 231; 235; 236; 237; 238; 239; 240; 241; 242; 243; 244; 246; 248; 251; 252; 253; 255];
   [];
   [];
   [];
   [30; 56; 192; 196; 199; 204; 205; 209; 211; 218; 226; 227; 244; 246; 251];
   [32];
   [0; 1; 4; 6; 7; 10; 12; 15; 17; 20; 22; 24; 25; 27; 29; 30; 32; 33; 34; 38; 42; 43; 52; 56; 62; 192; 193; 194; 196; 198; 199; 202; 204; 205; 209; 211; 214; 217; 218; 219; 225; 226; 227; 230; 231; 236; 237; 238; 239; 240; 241; 242; 243; 244; 246; 251; 252];
   [0; 1; 3; 4; 6; 7; 8; 10; 12; 14; 15; 17; 18; 20; 22; 24; 25; 27; 28; 29; 30; 31; 32; 33; 34; 35; 38; 40; 41; 42; 43; 45; 52; 53; 55; 56; 57; 60; 62; 192; 193; 194; 195; 196; 198; 199; 201; 202; 204; 205; 206; 209; 211; 214; 215; 217; 218; 219; 223; 225; 226; 227; 230; 231; 235; 236; 237; 238; 239; 240; 241; 242; 243; 244; 246; 248; 251; 252; 253; 255];
   [0; 1; 3; 4; 6; 7; 8; 10; 12; 15; 17; 20; 22; 24; 25; 27; 28; 29; 30; 31; 32; 33; 34; 35; 38; 40; 41; 42; 43; 45; 52; 53; 56; 57; 60; 62; 192; 193; 194; 195; 196; 198; 199; 201; 202; 204; 205; 206; 209; 211; 214; 215; 217; 218; 219; 225; 226; 227; 230; 231; 235; 236; 237; 238; 239; 240; 241; 242; 243; 244; 246; 248; 251; 252; 253];
   [];
   [227];
   [0; 1; 3; 4; 6; 7; 8; 10; 12; 14; 15; 16; 17; 20; 22; 24; 25; 27; 28; 29; 30; 31; 32; 33; 34; 35; 38; 40; 41; 42; 43; 45; 52; 53; 55; 56; 57; 60; 62; 192; 193; 194; 195; 196; 198; 199; 201; 202; 204; 205; 206; 209; 211; 214; 215; 217; 218; 219; 223; 225; 226; 227; 230; 231; 236; 237; 238; 239; 240; 241; 242; 243; 244; 246; 248; 251; 252];
   [0; 4; 6; 7; 12; 17; 20; 22; 25; 27; 28; 29; 30; 31; 32; 34; 35; 42; 43; 45; 52; 56; 192; 194; 196; 198; 199; 204; 205; 209; 211; 214; 217; 218; 219; 226; 227; 230; 236; 237; 238; 240; 242; 244; 246; 248; 251; 252];
   [];
   [];
   [];
   [12; 25; 27; 30; 32; 38; 43; 52; 198; 199; 204; 205; 209; 211; 217; 219; 226; 227; 230; 236; 240; 241; 244];
   [0; 1; 3; 4; 6; 7; 12; 15; 17; 20; 22; 24; 25; 27; 28; 29; 30; 31; 32; 33; 34; 35; 38; 41; 42; 43; 45; 52; 53; 56; 57; 62; 192; 193; 194; 195; 196; 198; 199; 201; 202; 204; 205; 206; 209; 211; 214; 215; 217; 218; 219; 223; 225; 226; 227; 230; 231; 235; 236; 237; 238; 239; 240; 241; 242; 243; 244; 246; 248; 251; 252];
   [0; 1; 3; 4; 6; 7; 8; 12; 15; 16; 17; 20; 22; 24; 25; 27; 28; 29; 30; 31; 32; 33; 34; 35; 38; 40; 41; 42; 43; 45; 52; 53; 56; 60; 62; 192; 193; 194; 195; 196; 198; 199; 201; 202; 204; 205; 206; 209; 211; 214; 215; 217; 218; 219; 225; 226; 227; 230; 236; 237; 238; 239; 240; 241; 242; 243; 244; 246; 248; 251; 252; 255];
   [0; 1; 3; 4; 6; 7; 8; 10; 12; 15; 17; 20; 22; 24; 25; 27; 28; 29; 30; 31; 32; 33; 34; 35; 38; 41; 42; 43; 45; 52; 56; 57; 60; 62; 192; 194; 196; 198; 199; 201; 202; 204; 205; 206; 209; 211; 214; 215; 217; 218; 219; 225; 226; 227; 230; 231; 236; 237; 238; 239; 240; 241; 242; 243; 244; 246; 248; 251; 252];
   [0; 1; 3; 4; 6; 7; 8; 12; 15; 17; 20; 22; 24; 25; 27; 28; 29; 30; 31; 32; 33; 34; 35; 38; 41; 42; 43; 45; 52; 53; 56; 60; 62; 192; 194; 195; 196; 198; 199; 201; 202; 204; 205; 206; 209; 211; 214; 215; 217; 218; 219; 223; 225; 226; 227; 230; 236; 237; 238; 239; 240; 241; 242; 243; 244; 246; 248; 251; 252];
   [0; 1; 3; 4; 6; 7; 8; 10; 12; 14; 15; 16; 17; 18; 20; 21; 22; 24; 25; 27; 28; 29; 30; 31; 32; 33; 34; 35; 38; 40; 41; 42; 43; 45; 52; 53; 56; 60; 62; 192; 193; 194; 195; 196; 197; 198; 199; 201; 202; 204; 205; 206; 209; 211; 214; 215; 217; 218; 219; 223; 225; 226; 227; 230; 231; 235; 236; 237; 238; 239; 240; 241; 242; 243; 244; 246; 248; 251; 252];
   [0; 1; 3; 4; 6; 7; 8; 10; 12; 15; 17; 18; 20; 21; 22; 24; 25; 27; 28; 29; 30; 31; 32; 33; 34; 35; 38; 40; 41; 42; 43; 45; 52; 53; 56; 60; 62; 192; 193; 194; 195; 196; 198; 199; 201; 202; 204; 205; 206; 209; 211; 214; 215; 217; 218; 219; 223; 225; 226; 227; 230; 231; 236; 237; 238; 239; 240; 241; 242; 243; 244; 246; 248; 251; 252; 255];
   [0; 1; 3; 4; 6; 7; 8; 10; 12; 15; 17; 20; 22; 24; 25; 27; 28; 29; 30; 31; 32; 33; 34; 35; 38; 42; 43; 45; 52; 53; 55; 56; 60; 62; 192; 193; 194; 195; 196; 198; 199; 201; 202; 204; 205; 206; 209; 211; 214; 215; 217; 218; 219; 225; 226; 227; 230; 236; 237; 238; 239; 240; 241; 242; 243; 244; 246; 248; 251; 252];
   [0; 1; 3; 4; 6; 7; 8; 10; 12; 14; 15; 17; 20; 22; 24; 25; 27; 28; 29; 30; 31; 32; 33; 34; 35; 38; 40; 41; 42; 43; 45; 52; 53; 56; 57; 60; 62; 192; 194; 195; 196; 198; 199; 201; 202; 204; 205; 206; 209; 211; 214; 215; 217; 218; 219; 225; 226; 227; 230; 236; 237; 238; 239; 240; 241; 242; 243; 244; 246; 248; 251; 252];
   [0; 1; 3; 4; 6; 7; 8; 10; 12; 14; 15; 16; 17; 18; 20; 21; 22; 24; 25; 27; 28; 29; 30; 31; 32; 33; 34; 35; 38; 40; 41; 42; 43; 45; 52; 53; 56; 57; 60; 62; 192; 193; 194; 195; 196; 197; 198; 199; 201; 202; 204; 205; 206; 209; 211; 214; 215; 217; 218; 219; 223; 225; 226; 227; 230; 231; 235; 236; 237; 238; 239; 240; 241; 242; 243; 244; 246; 248; 251; 252; 253; 255];
   [];
   [0; 1; 3; 4; 6; 7; 8; 10; 12; 15; 17; 20; 22; 24; 25; 27; 28; 29; 30; 31; 32; 33; 34; 35; 38; 41; 42; 43; 45; 52; 53; 55; 56; 57; 60; 62; 192; 193; 194; 195; 196; 197; 198; 199; 201; 202; 204; 205; 206; 209; 211; 214; 215; 217; 218; 219; 223; 225; 226; 227; 230; 231; 235; 236; 237; 238; 239; 240; 241; 242; 243; 244; 246; 248; 251; 252; 253; 255];
   [];
   [0; 1; 4; 6; 7; 12; 15; 17; 22; 25; 27; 28; 29; 30; 32; 34; 38; 42; 43; 52; 56; 62; 192; 193; 194; 196; 198; 199; 201; 204; 205; 209; 211; 214; 217; 218; 219; 226; 227; 230; 236; 237; 238; 239; 240; 241; 242; 243; 244; 246; 248; 251; 252];
   [];
   [];
   [0; 1; 3; 4; 6; 7; 12; 15; 17; 20; 22; 24; 25; 27; 28; 29; 30; 31; 32; 33; 34; 35; 38; 42; 43; 45; 52; 56; 62; 192; 193; 194; 195; 196; 197; 198; 199; 201; 202; 204; 205; 206; 209; 211; 214; 215; 217; 218; 219; 225; 226; 227; 230; 231; 236; 237; 238; 239; 240; 241; 242; 243; 244; 246; 248; 251; 252; 253; 255];
   [0; 1; 3; 4; 6; 7; 8; 10; 12; 15; 17; 20; 22; 24; 25; 27; 28; 29; 30; 31; 32; 33; 34; 35; 38; 41; 42; 43; 45; 52; 53; 56; 57; 60; 62; 192; 193; 194; 196; 198; 199; 201; 202; 204; 205; 206; 209; 211; 214; 215; 217; 218; 219; 223; 225; 226; 227; 230; 236; 237; 238; 239; 240; 241; 242; 243; 244; 246; 248; 251; 252];
   [25; 29; 32; 52; 56; 192; 199; 205; 209; 214; 217; 218; 219; 226; 227; 230; 236; 244];
   [];
   [52; 192; 194; 199; 204; 205; 209; 217; 218; 219; 225; 227; 236; 244; 246; 251; 252]].

Definition pos_chars_0 : list (char * list N) :=
  [(19968, [22; 214; 7; 0; 150; 25; 45; 102; 86; 135; 42; 38; 15; 120; 68; 143; 4; 43; 17; 20; 148; 6; 134; 155; 24; 107; 52; 153; 160; 64; 89; 116; 171; 71; 56; 12; 132; 91; 84; 30; 145; 88; 166; 27; 79; 159; 32; 92; 180; 93; 81; 158; 29; 31; 156; 157; 96; 35; 163; 152]);
   (19969, [27; 219; 91; 89; 158; 153; 25; 155; 160; 93; 96; 71; 33; 22; 246; 159; 30; 79; 116; 150; 143; 218; 94; 157; 28; 148; 161; 32; 15; 52; 84; 43; 29; 4; 92]);
   (19971, [22; 150; 214; 86; 43; 25; 30; 15; 143; 155; 32; 94; 91; 160; 158; 4; 153; 20; 107; 159; 89; 31; 17; 27; 148; 96; 152; 145]);
   (19975, [22; 214; 86; 150; 25; 32; 27; 143; 4; 30; 43; 15; 7; 155; 91; 148; 79; 93; 20; 153; 24; 160; 29; 158; 35; 152; 0; 31; 17; 28; 157; 52; 84; 94; 156]);
   (19976, [25; 86; 227; 89; 153; 79; 52; 91; 214; 143; 148; 32; 155; 93; 15; 84]);
   (19977, [22; 214; 150; 24; 86; 25; 155; 30; 17; 32; 4; 158; 107; 43; 153; 15; 143; 160; 29; 20; 148; 71; 171; 102; 91; 89; 38; 145; 79; 27; 31; 159; 52; 96; 92; 81; 56; 42; 152; 84; 156; 135; 88; 180; 132]);
   (19978, [204; 52; 106; 30; 76; 116; 43; 25; 89; 71; 12; 4; 17; 107; 84; 31; 180; 143; 153; 148; 20; 94; 79; 27; 42; 155; 56; 32; 22; 29; 134; 0; 140; 68; 132; 158; 15; 91; 62; 171; 126; 150; 159; 93; 145; 24; 128; 157; 160; 152]);
   (19979, [204; 52; 116; 76; 89; 86; 106; 25; 43; 12; 153; 71; 150; 107; 148; 84; 79; 64; 68; 4; 20; 134; 180; 102; 143; 120; 30; 145; 56; 0; 135; 94; 158; 214; 155; 140; 171; 91; 15; 93; 132; 159; 35; 96; 29; 32; 184; 88; 152; 7; 160; 95]);
   (19981, [199; 52; 7; 0; 25; 6; 143; 148; 180; 22; 71; 15; 20; 8; 135; 84; 62; 153; 134; 43; 128; 158; 30; 4; 171; 42; 32; 56; 155; 70; 29; 160; 150; 81; 190; 1; 132; 157; 27; 145]);
   (19982, [226; 116; 6; 153; 15; 52; 45; 20; 143; 155; 25; 159; 7; 148; 160; 91; 30; 79]);
   (19984, [89; 205; 155; 91; 25]);
   (19985, [192; 25; 0; 89; 86; 116; 91; 148; 52; 143; 150; 15; 155; 107; 43; 20; 160; 79; 67; 81; 209; 171; 64]);
   (19987, [25; 7; 199; 52; 56; 4; 0; 20; 148; 81; 1; 89; 145; 15; 32; 91; 155; 17; 159; 153; 68; 143; 132; 84; 95]);
   (19988, [70; 198; 6; 71; 20; 30; 143; 116; 148; 91]);
   (19989, [205; 91; 155; 92]);
   (19990, [25; 218; 155; 116; 89; 160; 153; 93; 91; 171; 43; 20; 42; 143; 27; 31; 56; 107; 79; 17; 32; 148; 84; 81; 4; 94; 68; 152; 159; 15; 52; 71; 150; 22; 156; 180; 86; 96; 0; 120; 158; 157]);
   (19992, [25; 89; 27; 94; 219; 91; 153; 227; 155; 158; 218; 93; 30; 143; 159; 160; 96; 29; 79; 32; 42; 157]);
   (19993, [25; 153; 215; 160; 155; 22; 91; 32; 92; 143; 96]);
   (19994, [89; 153; 25; 116; 159; 120; 218; 81; 184; 12; 84; 96; 68; 91; 148; 180; 4; 7; 79; 160; 95; 217; 155; 143; 17; 158; 102; 93; 132; 20; 94; 171; 199; 32; 15; 92]);
   (19995, [89; 25; 219; 27; 12; 52; 91; 227; 153; 218; 148; 155; 150; 86; 35; 99; 143; 42; 30; 15; 190; 126]);
   (19996, [25; 94; 12; 30; 204; 89; 42; 91; 27; 158; 43; 155; 17; 32; 76; 159; 4; 31; 153; 52; 15; 93; 160; 106; 143; 148; 96; 140; 20; 29; 95; 92; 56; 157; 116; 28; 84; 18; 156; 145]);
   (19997, [89; 25; 217; 86; 22; 227; 153; 143; 116; 91; 20; 4; 155; 32; 190; 96; 88; 152; 93; 29; 148; 62; 126; 94; 84; 15; 160; 120; 214; 150; 158; 79; 35; 68; 157]);
   (19998, [25; 153; 155; 89; 92]);
   (20002, [244; 52; 0; 20; 15; 27]);
   (20004, [22; 214; 25; 12; 86; 150; 38; 17; 4; 30; 143; 89; 153; 20; 15; 148; 62; 145; 43; 79; 52; 155; 32; 159; 56; 160; 84; 91; 180; 29]);
   (20005, [0; 1; 192; 27; 52; 64; 25; 89; 3; 71; 30; 155; 15; 91; 62; 190; 116; 79; 43; 160; 84; 7; 20; 143; 28; 153; 158; 17; 96; 53; 148; 56]);
   (20007, [52; 246; 25; 64; 116; 143; 15; 120; 218; 148; 0; 4; 153; 20; 17; 160]);
   (20010, [86; 102; 227; 214; 25; 68; 150; 0; 71; 35; 99; 153; 135; 171; 107; 166; 17; 52; 148; 20; 38; 89; 30; 22; 145; 56; 180; 160; 155; 173]);
   (20011, [25; 155; 217; 153; 89; 218; 91; 180; 158]);
   (20013, [204; 30; 25; 102; 106; 31; 17; 12; 116; 32; 4; 76; 43; 52; 94; 159; 155; 89; 148; 71; 158; 153; 91; 145; 29; 93; 143; 0; 81; 107; 132; 20; 84; 7; 170; 56; 27; 96; 92; 64; 160; 79; 15; 42; 140; 95; 184; 68; 120; 180; 156; 171; 146]);
   (20016, [0; 94; 194; 96; 27; 32; 91; 52; 25; 15; 30; 159; 219; 155; 158; 116; 93; 143; 20; 31; 56; 148; 84; 160; 29; 153; 92; 180; 79; 64; 157]);
   (20018, [244; 89; 86; 52; 25; 116; 56; 4; 148; 120; 30; 15; 153; 91; 17; 96; 20; 227; 143]);
   (20020, [116; 4; 52; 244; 30; 94; 56; 91; 25; 143; 155; 159; 29; 15; 160; 7; 153; 148; 32; 31; 20; 158; 17; 92; 96; 84]);
   (20024, [89; 218; 227; 25; 91; 96; 155; 143; 153; 32]);
   (20025, [94; 30; 91; 27; 219; 89; 25; 155; 209; 158; 160; 153; 116; 218; 32; 29; 143; 31; 93; 15; 159; 96; 148; 79; 20]);
   (20026, [226; 116; 70; 52; 71; 34; 38; 89; 143; 91; 148; 45; 155; 20; 79; 25; 15; 6; 94; 29; 84; 92; 153; 102; 96; 0; 128; 159; 158; 120]);
   (20027, [25; 4; 153; 116; 89; 217; 52; 64; 1; 56; 160; 79; 159; 91; 148; 158; 155; 20; 180; 17; 84; 29; 132; 184; 143; 94; 93; 117]);
   (20029, [64; 155; 91; 219; 30; 27; 126; 94; 143; 93; 157; 25; 158; 31; 89; 153; 29; 194; 79; 32; 160; 246; 116; 156; 148; 92; 0]);
   (20030, [52; 244; 116; 25; 71; 15; 102; 89; 143; 153; 91; 79; 20; 148; 84; 155; 7; 56; 160; 180; 159; 120; 92]);
   (20035, [244; 6; 52; 155; 91; 153; 116; 25; 30; 158; 148; 143; 27]);
   (20037, [192; 86; 64; 102; 52; 71; 7; 171; 68; 153; 107; 91; 143; 148; 155; 15; 79; 62; 150; 20; 84; 43; 116; 180; 65; 0; 29; 27; 32; 94; 89; 30; 158]);
   (20039, [227; 91]);
   (20040, [102; 166; 252; 219; 71; 84; 116; 70; 148; 91; 27; 155]);
   (20041, [89; 25; 116; 218; 91; 153; 155; 219; 84; 96; 68; 94; 79; 158; 20; 120; 143; 30; 15; 64; 32; 160; 159; 0; 52; 223; 148; 93; 31; 180; 29; 92; 184; 56; 157; 27]);
   (20043, [237; 12; 38; 143; 148; 155; 70; 91; 6; 71; 180; 30; 79; 153; 150; 134; 25; 116; 152; 84; 98; 89; 92; 160; 170; 107; 27; 86; 15; 162; 158]);
   (20044, [30; 25; 27; 209; 29; 62; 155; 32; 15; 91; 158; 94; 143; 89; 157; 96; 31; 190; 126; 153; 93; 79; 17; 52; 148; 95]);
   (20045, [199; 244; 30; 143; 20; 91]);
   (20046, [71; 116; 252; 126; 190; 143; 148; 226; 79; 64; 84; 91; 70; 155; 120]);
   (20047, [116; 0; 64; 244; 153; 79; 20; 67; 143; 52; 160; 192; 246]);
   (20048, [89; 25; 0; 153; 192; 64; 27; 120; 91; 94; 116; 52; 159; 30; 143; 160; 155; 158; 148; 79; 96; 107; 15; 93; 244; 62; 29; 32; 84; 20; 180; 68; 190; 126; 171; 95; 92; 145]);
   (20050, [25; 209; 17; 161; 33; 159; 91; 81]);
   (20051, [153; 225; 81; 161; 97; 159]);
   (20052, [27; 91; 25; 219; 155; 29; 30; 15; 160; 93; 157; 218; 52; 17; 28; 32; 158; 31; 4]);
   (20054, [192; 25; 0; 89; 71; 7; 116; 62; 91; 155; 143]);
   (20056, [244; 25; 52; 7; 96; 116; 91; 34; 89; 15; 143; 20; 32; 126; 155; 79; 153; 88; 84; 56; 64; 4; 120; 148; 158]);
   (20057, [25; 217; 153; 160; 91; 155; 32; 20; 22; 89; 214; 4; 215; 28; 145; 156; 96]);
   (20060, [219; 52; 27; 91; 155]);
   (20061, [22; 150; 214; 155; 30; 86; 43; 25; 32; 91; 17; 143; 27; 107; 15; 160; 31; 89; 84; 42; 153; 4; 148; 152; 158; 159; 81; 20; 96; 163; 171; 68; 29; 156]);
   (20062, [52; 25; 116; 30; 143; 89; 56]);
   (20063, [199; 7; 71; 60; 20; 158; 30; 79; 155; 148; 91; 159; 92; 143; 31; 84]);
   (20064, [116; 25; 153; 244; 120; 89; 52; 27; 15; 91; 155; 62; 126; 246; 28; 171; 160; 30; 143; 79; 218; 219]);
   (20065, [217; 89; 25; 116; 94; 42; 158; 86; 153; 79; 102; 91; 84; 143; 155; 96; 20; 160; 148; 93; 4; 214; 120; 150; 29; 156; 159; 30; 157]);
   (20070, [89; 217; 25; 153; 116; 102; 155; 91; 159; 52; 120; 4; 96; 42; 160; 143; 7; 84; 30; 15; 79; 27; 17; 148; 92; 32; 94; 156; 158; 20]);
   (20073, [251; 116]);
   (20080, [244; 52; 116; 25; 153; 158; 94; 56; 143; 148; 155; 27; 120; 20; 157; 29; 84; 15; 4; 159; 160]);
   (20081, [199; 64; 116; 89; 52; 25; 143; 79; 71; 62; 15; 120; 148; 84; 20; 180; 96; 153; 30; 65; 190; 91; 81; 67; 160; 0]);
   (20083, [25; 218; 153; 89; 116; 96; 52; 246; 30; 4; 148; 91; 32; 143; 15; 120; 160]);
   (20094, [209; 27; 43; 155; 91; 25; 218; 32; 17; 30; 143; 94; 92]);
   (20102, [241; 98; 52; 116; 84; 124; 0; 143; 109; 148; 71; 107; 15; 89; 79; 20; 180; 155; 27; 68; 25; 91; 92; 153; 120]);
   (20104, [116; 52; 246; 244; 91; 155; 120; 143; 148; 15; 153; 92]);
   (20105, [89; 120; 52; 96; 244; 56; 153; 25; 116; 84; 91; 15; 155; 7; 148; 79; 143; 0; 20; 62; 158; 180; 31; 81]);
   (20107, [25; 217; 89; 116; 153; 20; 102; 68; 79; 143; 7; 43; 148; 159; 160; 64; 52; 84; 15; 120; 71; 180; 155; 96; 91; 81; 158; 95; 145; 4; 184]);
   (20108, [22; 214; 150; 86; 25; 29; 4; 160; 107; 155; 30; 43; 38; 153; 6; 102; 91; 17; 89; 148; 171; 143; 79; 32; 20; 159; 27; 15; 52; 68; 135; 24; 81; 158; 145; 84; 152; 31; 92; 96; 94]);
   (20109, [251; 89]);
   (20110, [116; 226; 98; 70; 71; 6; 27; 143; 148; 89; 155; 28; 30; 84; 91; 7; 119; 153; 93; 20; 15; 29; 156]);
   (20111, [56; 244; 116; 52; 71; 25; 89; 148; 7; 84; 143; 0; 79]);
   (20113, [217; 30; 91; 89; 25; 155; 27; 94; 158; 143; 52; 116; 32; 153; 31; 17; 79; 126; 96; 84; 148; 20; 160; 93; 15; 29; 156; 42; 92; 159; 45; 109]);
   (20114, [71; 7; 52; 25; 199; 148; 116; 20; 153; 15; 56; 145; 159; 4; 30; 143; 91; 32]);
   (20115, [219; 27; 155]);
   (20116, [22; 150; 214; 25; 89; 86; 43; 107; 17; 30; 32; 15; 143; 4; 29; 155; 91; 24; 171; 20; 27; 153; 148; 158; 84; 160; 145; 56; 159; 92; 96; 31; 81; 79]);
   (20117, [89; 217; 25; 27; 30; 94; 52; 153; 91; 42; 155; 116; 143; 15; 93; 160; 96; 158; 79; 29; 148; 32; 159; 62; 20]);
   (20120, [116; 25; 15; 158]);
   (20122, [94; 30; 209; 25; 91; 155; 158; 27; 96; 93; 29; 159; 153; 17; 160; 31; 32; 180; 157; 89; 81; 145; 156; 92]);
   (20123, [102; 86; 227; 71; 150; 171; 22; 0; 7; 91; 214; 4]);
   (20127, [52; 199; 7; 20; 91]);
   (20129, [116; 246; 52; 120; 244; 153; 79; 89; 25; 84; 15; 160; 143; 148; 20]);
   (20130, [219; 0; 64; 52; 89; 27; 79; 15; 143; 91; 116; 155; 25]);
   (20132, [25; 52; 116; 153; 244; 56; 145; 159; 89; 17; 68; 20; 143; 120; 31; 180; 160; 79; 15; 148; 30; 91; 84; 43; 32; 4; 158; 155; 29; 81; 7; 0]);
   (20133, [160; 158; 86; 150; 148; 43; 143]);
   (20134, [199; 52; 91; 155; 143; 27; 148; 15; 38; 71; 30]);
   (20135, [25; 89; 120; 153; 52; 116; 81; 244; 17; 148; 159; 68; 56; 84; 20; 145; 160; 132; 79; 43; 91; 184; 180; 32; 155; 4; 171; 18; 158; 96]);
   (20136, [29; 219; 91; 155; 89; 158; 27; 143; 52; 30; 93]);
   (20137, [86; 227; 214; 99; 102; 89; 56; 17; 25; 52]);
   (20139, [52; 116; 244; 25; 20; 246; 91; 155; 143; 56; 30; 153; 79; 148]);
   (20140, [94; 209; 159; 30; 158; 25; 32; 116; 153; 91; 96; 155; 17; 160; 89; 31; 93; 92; 29; 81; 156; 143; 145]);
   (20141, [218; 91; 25; 89; 155; 94; 96; 158; 93; 15; 143; 153; 30]);
   (20142, [244; 64; 91; 116; 89; 25; 52; 126; 0; 155; 62; 190; 92; 20; 84; 153; 143; 32; 68; 158; 160; 79; 148]);
   (20146, [89; 25; 7; 244; 0; 52; 116; 155; 4; 91; 153; 20; 79; 143; 120; 148; 68; 15; 62; 190; 84; 64; 171; 96; 56]);
   (20147, [251; 30; 91]);
   (20149, [52; 116; 0]);
   (20154, [217; 89; 25; 102; 153; 93; 143; 116; 91; 158; 64; 159; 148; 20; 68; 17; 15; 79; 31; 32; 7; 120; 84; 96; 155; 4; 160; 150; 92; 145; 30; 52; 104; 35; 180; 81; 22; 56; 128; 21; 171; 157; 132]);
   (20159, [22; 214; 150; 86; 148; 32; 155; 91; 4; 88; 25]);
   (20160, [38; 166; 148; 180; 158; 94; 93; 25; 157; 91; 153; 89; 30; 160; 29; 155; 96]);
   (20161, [91; 155; 218; 27; 89; 25; 30; 79; 116; 0; 143; 96; 158; 15; 94; 160; 159; 29; 153; 64; 93; 148; 157; 20; 194; 32]);
   (20163, [251; 158; 79; 64; 92; 91]);
   (20164, [89; 126; 25]);
   (20165, [199; 70; 71; 7; 52; 135; 148; 20; 143; 15; 91; 155]);
   (20166, [25; 218; 91; 89; 155; 143; 79; 160; 52; 158; 15]);
   (20167, [25; 116; 217; 27; 89; 143; 52; 79; 153; 84; 91; 120; 155; 56; 15; 219; 28]);
   (20169, [219; 155]);
   (20170, [43; 236; 107; 71; 148; 89; 27; 25; 143; 91; 84; 15; 155; 79; 116; 153; 29; 81; 92]);
   (20171, [52; 155; 89; 25; 116; 153; 219; 91; 27; 81; 218; 148; 30; 143; 145; 17; 246; 160; 28; 120; 0]);
   (20173, [199; 7; 116; 91; 155]);
   (20174, [226; 7; 6; 52; 116; 98; 27; 43; 89; 20; 4; 0; 15; 155; 71; 79; 143; 25; 148; 30; 56; 153; 91; 62; 190; 180; 120]);
   (20177, [158; 89; 94; 91; 99; 205; 153; 155; 96; 93]);
   (20179, [25; 219; 116; 218; 91; 153; 89; 1; 94; 27; 155; 0; 17; 56; 52; 62; 79; 158; 96; 30; 32; 93; 148; 15; 4; 29]);
   (20180, [1; 218; 91; 196; 89; 153; 160; 190; 62; 155; 158; 25; 94; 29]);
   (20181, [217; 25; 89; 91; 155; 116; 79]);
   (20182, [230; 38; 102; 25; 20; 166; 168; 153; 94; 56; 89; 158; 116; 148; 42; 84; 155; 15; 160; 143; 32; 52; 159]);
   (20183, [217; 116; 89; 0; 15; 244; 153; 91; 52; 84; 79; 143; 159; 148]);
   (20184, [116; 120; 52; 244; 89; 27; 153; 20; 25; 148; 15; 155; 91; 88; 143; 56; 184; 68]);
   (20185, [218; 25; 89; 91; 155; 30; 153; 158; 32; 116; 143; 160; 79; 52; 96; 20; 148; 94; 15; 31; 156; 84; 29]);
   (20189, [91; 155; 219; 27]);
   (20190, [227; 84; 91; 155; 94]);
   (20191, [214; 150; 22; 91]);
   (20193, [32]);
   (20195, [107; 89; 25; 52; 116; 227; 86; 153; 184; 56; 160; 91; 27; 143; 155; 159; 148; 214; 79; 68; 81; 84; 76; 158; 20; 88; 180; 152; 93; 150; 145; 120; 157; 15; 29; 30; 32; 95; 96; 7; 17; 28; 132; 156]);
   (20196, [89; 244; 29; 153; 116; 20; 91; 25; 155; 70; 148; 15; 143; 94; 79; 27; 84; 99; 158; 132; 93; 159; 28; 96]);
   (20197, [226; 12; 116; 6; 70; 71; 52; 7; 148; 143; 43; 155; 30; 15; 20; 25; 32; 34; 31; 17; 153; 79; 27; 96; 91; 156; 89]);
   (20200, [214; 22; 89; 86]);
   (20202, [25; 89; 91; 218; 96; 155; 211; 27; 30; 153; 32; 17; 116; 20; 15; 143; 159; 148; 79; 93; 56; 92; 158]);
   (20203, [32; 158]);
   (20204, [102; 211; 89; 153; 158; 148; 94; 104; 160; 91]);
   (20208, [89; 244; 116; 52; 7; 20; 27; 91; 30; 143; 25; 120; 153; 15; 155; 148; 56; 84]);
   (20210, [155; 52; 91; 27; 219; 56; 89; 25; 43; 30; 160; 143; 17; 159; 29; 156]);
   (20211, [251]);
   (20213, [25; 219; 27; 251]);
   (20214, [89; 86; 88; 227; 214; 84; 153; 148; 71; 96; 81; 25; 116; 155; 91; 160; 143]);
   (20215, [25; 89; 116; 217; 148; 120; 153; 64; 143; 96; 20; 79; 15; 91; 84; 71; 0; 68; 159; 155; 160; 132; 81]);
   (20219, [244; 89; 116; 38; 25; 52; 27; 153; 84; 7; 68; 86; 91; 28; 4; 0; 15; 143; 155; 79; 214; 56; 159; 148; 30; 20; 92; 120]);
   (20221, [89; 86; 25; 227; 96; 153; 88; 68; 214; 148; 107; 95; 159; 99; 102; 32; 64; 152; 180; 116; 143; 158]);
   (20223, [7; 52; 116; 244; 25; 89; 4; 56; 153; 155; 32; 91; 156; 217]);
   (20225, [25; 218; 145; 52; 81; 153; 89; 209; 148; 155; 91; 160; 17; 159; 132; 143; 4; 56; 120]);
   (20233, [25; 219; 91]);
   (20234, [30; 32; 27; 209; 29; 155; 91; 158; 93; 157; 25; 52; 160; 89; 159; 94; 31; 96; 17; 148; 86; 143]);
   (20237, [89; 27; 116; 214; 91; 153; 155; 22; 219; 150; 29; 158; 157; 30; 86; 25; 94; 28; 84]);
   (20238, [218; 25; 89; 91; 143]);
   (20239, [116; 244; 27; 30; 52; 81; 25; 79; 91; 171; 155; 86; 35; 84; 107; 143; 43; 148; 99; 32; 180; 227; 153; 89; 120; 0; 88; 31; 158; 56; 248; 20; 150]);
   (20240, [89; 244; 116; 158; 81; 153; 160; 91; 155; 52; 143; 79; 25; 120; 56; 248; 84]);
   (20241, [52; 244; 116; 56; 25; 91; 120; 84; 153; 79; 30; 15; 155; 180; 32; 89; 148; 29; 171; 94; 43; 158; 81; 96; 31; 145]);
   (20247, [89; 218; 25; 22; 15; 116; 143; 79; 148; 160; 153; 91; 71; 95; 155; 64; 159; 145; 180; 68; 84; 81; 32; 158; 20; 120; 17; 150; 184; 96; 217]);
   (20248, [25; 0; 52; 56; 4; 62; 194; 180; 68; 20; 153; 116; 71; 91; 15; 148; 81; 79; 89; 155; 29; 143; 32; 92; 145; 84; 120]);
   (20249, [89; 25; 153; 116; 227; 102; 86; 88; 166; 52; 74; 91; 158; 155; 84; 180; 4; 120]);
   (20250, [244; 89; 116; 25; 153; 95; 81; 52; 150; 91; 148; 96; 43; 166; 159; 84; 86; 102; 160; 88; 35; 56; 184; 155; 30; 17; 158; 143; 79; 135; 94; 29; 0; 42; 32; 120; 20; 7; 180]);
   (20251, [52; 244]);
   (20254, [217; 25; 89; 116; 148; 91; 4; 52; 153; 96; 155]);
   (20255, [91; 0; 64; 155; 219; 25; 32; 148; 92; 156; 84; 143]);
   (20256, [25; 52; 244; 56; 120; 116; 153; 155; 89; 91; 84; 96; 79; 0; 68; 148; 159; 20; 15; 143; 32; 132; 4; 160; 93; 17; 92; 43]);
   (20258, [25]);
   (20260, [116; 244; 25; 52; 89; 0; 56; 64; 153; 120; 67; 79; 15; 143; 20; 84; 42; 91; 160; 145; 155; 3; 148]);
   (20261, [79; 25]);
   (20262, [30; 158; 91; 155; 25; 94; 219; 27; 159; 143; 93; 31; 89; 29; 218; 126; 160; 157; 96; 79; 116; 153; 20; 84; 52; 92; 35]);
   (20263, [116; 251; 92]);
   (20266, [25; 209; 52; 120; 64; 89; 116; 81; 30; 148; 17; 145; 91; 4; 153; 143; 155]);
   (20267, [52; 246; 91]);
   (20271, [155; 27; 94; 91; 158; 25; 89; 219; 153; 160; 30; 218; 157; 29; 96; 159; 93; 156; 92; 31; 15; 32]);
   (20272, [25; 52; 120; 116; 244; 153; 148; 155; 89; 93; 56; 91]);
   (20276, [52; 89; 244; 116; 25; 153; 91; 56; 155; 96]);
   (20278, [0; 143; 89; 30; 15; 158; 190; 126; 155; 148; 160]);
   (20280, [52; 116; 244; 91; 15; 25; 155; 4; 56; 79; 153; 89; 148; 92; 0; 32; 143]);
   (20282, [52; 7; 56; 116; 32]);
   (20284, [7; 116; 45; 64; 199; 246; 143; 153; 15; 20; 155; 91; 148; 180]);
   (20285, [27; 89; 29; 25; 30; 160; 153]);
   (20291, [25; 244; 116; 153; 91; 155; 89]);
   (20294, [198; 6; 70; 27; 52; 7; 29; 158; 25; 15; 20]);
   (20301, [89; 86; 52; 227; 25; 116; 105; 102; 214; 120; 153; 68; 148; 88; 27; 84; 91; 159; 20; 143; 79; 15; 145; 155; 71; 160; 30; 100; 96; 81]);
   (20302, [192; 116; 52; 25; 64; 0; 89; 7; 153; 4; 42; 145; 68; 78; 15; 190; 170; 3; 17; 32; 20; 62; 79; 1; 148; 132; 126; 81; 84; 143]);
   (20303, [244; 116; 25; 52; 71; 153; 64; 79; 180; 120; 84; 148; 143; 91; 32; 81; 145; 31; 132; 17; 56; 155; 159]);
   (20304, [246; 116; 91; 155; 25; 29; 52; 30; 89; 56; 158; 27; 93; 157; 31; 92; 96]);
   (20305, [116; 96; 92; 52; 120]);
   (20307, [89; 25; 64; 52; 217; 218; 42; 153; 184; 71; 148; 68; 116; 155; 91; 56; 84; 27; 81; 134; 0; 135; 96; 143; 159; 95; 79; 180; 132; 17; 158; 20; 15; 160; 62; 190; 120; 32; 43; 145]);
   (20309, [102; 38; 230; 7; 27; 6; 89; 84; 166; 52; 79; 25; 148; 116; 153; 91; 143; 15; 71; 155; 0; 28; 158; 20; 29; 92; 30; 160; 32]);
   (20311, [91; 205; 92; 160]);
   (20312, [27; 219; 30]);
   (20313, [22; 214; 102; 150; 148; 86; 25; 27; 89; 116; 153; 64; 68; 30; 120; 52; 143; 79; 28; 91; 94; 38; 155; 84; 158; 29; 160; 107; 159; 20; 15; 56]);
   (20314, [246; 116; 25; 91; 89; 79; 155]);
   (20315, [32; 25; 217; 71; 30; 89; 116; 91; 159; 153; 155; 158; 160; 94; 93; 29; 79; 148; 96; 31; 143; 15; 157]);
   (20316, [120; 25; 52; 116; 244; 89; 153; 148; 143; 155; 94; 84; 79; 159; 15; 180; 17; 158; 91; 56; 64; 81; 32; 156; 160; 31; 68; 184; 4; 132]);
   (20317, [25; 52]);
   (20318, [89; 25; 64]);
   (20319, [27; 219; 91]);
   (20320, [230; 38; 20; 15; 68; 148; 91; 155; 25; 132; 84; 153]);
   (20323, [25; 116; 218; 148; 153; 120; 89; 155]);
   (20324, [32; 209; 158; 93]);
   (20325, [205; 91; 153; 25]);
   (20329, [52; 155; 27; 116; 244; 91; 29; 25; 159; 158; 89; 30; 84; 157; 93; 32]);
   (20332, [218; 96; 160; 89; 84; 158; 91; 153]);
   (20335, [52; 116]);
   (20336, [155; 91; 214; 150; 22; 86; 160]);
   (20339, [126; 192; 25; 91; 155; 64; 81; 30; 116; 32; 143; 96; 31; 43; 153; 148; 93; 159; 15; 156]);
   (20342, [91; 205; 15; 155]);
   (20347, [64; 205]);
   (20348, [25; 153]);
   (20350, [205]);
   (20351, [244; 52; 116; 70; 89; 25; 91; 20; 153; 64; 143; 79; 155; 159; 148; 7; 96; 180; 68]);
   (20355, [116; 244; 91; 15; 143; 71; 155; 7; 20; 52; 156]);
   (20356, [25; 89; 153]);
   (20360, [153; 64; 246; 79; 52; 148; 0; 91]);
   (20361, [25]);
   (20363, [89; 52; 217; 25; 214; 71; 86; 116; 148; 153; 56; 79; 15; 88; 132; 84; 120; 91]);
   (20365, [25; 219; 27; 52; 116; 89; 155; 246; 153]);
   (20367, [43; 25; 27; 4]);
   (20369, [205; 91; 155]);
   (20372, [91; 205]);
   (20375, [209; 32; 91; 158; 155; 25]);
   (20379, [116; 56; 244; 25; 52; 20; 15; 148; 153; 89; 79; 17; 31; 145; 91; 68; 159]);
   (20381, [7; 52; 244; 25; 91; 62; 155; 34; 116; 27; 143; 20; 15; 126; 96; 158; 160; 30; 94; 84; 56; 32; 120; 157; 148; 159; 79; 89; 0; 29]);
   (20384, [91; 89; 219; 25; 153; 0; 218; 160; 155; 15; 148]);
   (20387, [89; 160; 25; 153]);
   (20389, [0; 1]);
   (20390, [52; 25; 246; 81; 56; 20; 160; 91; 116; 153; 32; 155]);
   (20391, [76; 244; 12; 25; 52; 89; 7; 79; 56; 106; 32; 116; 155; 143; 15; 227; 153]);
   (20392, [89; 25; 218; 52; 153; 209; 159; 32; 91; 81; 17; 219; 158; 155]);
   (20393, [89; 205; 153]);
   (20394, [89; 25; 205; 102; 155]);
   (20396, [205; 91; 93]);
   (20398, [52; 116; 246; 89; 25; 32; 120]);
   (20399, [27; 91; 89; 219; 155; 153; 218; 25; 30; 29; 94; 158; 79; 28; 20; 84]);
   (20405, [52; 116; 246; 56; 25; 153; 91; 148; 32; 30; 160]);
   (20415, [199; 52; 64; 0; 70; 71; 65; 116; 89; 25; 91; 22; 4; 148; 153; 190; 126; 56; 60; 84; 180; 143; 79; 158; 155; 15; 43; 150; 30; 96; 20]);
   (20419, [52; 116; 244; 64; 56; 25; 159; 65; 143; 0; 89; 32; 15; 145; 91; 20; 81]);
   (20420, [30; 209; 158; 94; 25; 17; 31; 32; 81; 7; 4; 159; 155; 153; 93]);
   (20421, [251; 91; 155]);
   (20426, [155; 91; 219; 192; 0; 64; 143; 25; 27; 89; 32; 62; 156; 15; 29]);
   (20430, [219; 143; 89; 79; 155]);
   (20431, [192; 64; 244; 0; 25; 79; 91; 116; 52; 153; 155; 62]);
   (20432, [64; 91; 79; 251; 143; 155; 84]);
   (20433, [218; 89; 153; 91; 25; 158]);
   (20439, [89; 64; 192; 52; 25; 20; 79; 116; 153; 143; 180; 0; 148; 91; 155; 15; 184; 84]);
   (20440, [25; 116; 244; 52; 89; 120; 153]);
   (20442, [25; 64]);
   (20444, [251]);
   (20445, [52; 25; 244; 81; 116; 120; 153; 91; 56; 0; 30; 155; 27; 32; 29; 148; 89; 159; 96; 158; 7; 17; 20; 28; 145; 143; 4; 93; 31; 94; 15; 71; 160; 84]);
   (20446, [27; 219; 155; 91; 28]);
   (20447, [251; 155; 93]);
   (20449, [25; 217; 116; 89; 52; 120; 91; 159; 96; 81; 153; 27; 64; 155; 30; 32; 143; 56; 15; 79; 95; 148; 160; 92; 31; 4; 93; 84; 7; 102; 20; 29; 145; 94; 17; 132; 158]);
   (20451, [251; 153; 155; 91]);
   (20454, [205; 91]);
   (20456, [52]);
   (20457, [214; 102; 89; 22; 86; 79; 150])].
Definition pos_chars_1 : list (char * list N) :=
  [(20458, [89; 205; 91; 155]);
   (20461, [91; 64; 194; 143; 148; 0; 52; 155; 65; 79]);
   (20462, [52; 244; 116; 25; 120; 27; 91; 56; 155; 153; 30; 0; 92; 160; 81; 84; 93; 143; 20; 29; 158; 180; 15; 145; 32; 148; 89]);
   (20463, [52; 244; 15; 25; 91; 20; 148]);
   (20465, [201; 25; 143; 52; 148; 0; 91; 155; 159; 96; 145; 160]);
   (20467, [218; 25; 91]);
   (20472, [219; 25; 89; 155; 91]);
   (20474, [230; 38; 91]);
   (20478, [29; 246; 30]);
   (20492, [205; 89]);
   (20493, [214; 86; 227; 25; 52; 71; 153; 7; 79; 155; 68; 84; 91; 27; 132; 32; 160; 143; 89; 150; 148]);
   (20495, [7; 201]);
   (20498, [244; 52; 116; 71; 25; 0; 143; 20; 79; 7; 148; 153; 15; 64; 120; 6; 89; 84; 56; 30; 155; 53; 180; 160; 190; 126]);
   (20500, [0; 192]);
   (20504, [6; 198; 52]);
   (20505, [89; 116; 102; 84; 244; 71; 25; 4; 153; 120; 20; 52; 27; 91; 107; 68; 155; 159; 56; 160; 96]);
   (20506, [244; 52; 91; 79; 116; 15; 155; 84; 25; 143]);
   (20508, [91; 251; 143; 0; 155]);
   (20511, [52; 244; 25; 98; 116; 34; 7; 56; 15; 20; 162; 153; 148; 79; 120; 143]);
   (20513, [116; 52; 246; 25; 148; 153; 91; 155]);
   (20517, [0; 143; 251]);
   (20518, [64; 192; 116; 0; 25; 79]);
   (20520, [194; 0; 205; 143]);
   (20521, [91; 244; 155; 25; 219; 143]);
   (20522, [27; 219; 89; 91; 84; 251; 155; 28]);
   (20524, [205; 91; 155]);
   (20525, [218; 25; 116]);
   (20526, [205]);
   (20538, [25; 217; 89; 116; 120; 153; 15; 84; 148; 159; 20; 143]);
   (20540, [89; 116; 217; 52; 84; 153; 25; 0; 56; 148; 120; 20; 64; 143; 91; 79; 81; 244; 159; 155; 180; 160; 68]);
   (20542, [52; 25; 244; 180; 153; 68; 15; 143; 56; 148; 155; 62; 7; 79; 91; 20; 160]);
   (20547, [30; 15; 157; 25; 52]);
   (20551, [192; 25; 52; 89; 116; 6; 64; 43; 171; 107; 56; 143; 153; 148; 79; 4; 84; 20; 17; 15; 120; 62; 145; 91; 81; 155; 32; 159]);
   (20552, [205; 25; 91]);
   (20556, [4; 230; 91]);
   (20558, [244; 116; 52; 91; 84; 15; 143]);
   (20559, [199; 192; 25; 52; 7; 71; 0; 12; 143; 3; 153; 148; 32; 56; 62; 30; 15; 116; 89; 4; 20; 160]);
   (20565, [246; 52; 143; 158; 155]);
   (20570, [244; 52; 116; 25; 180; 148; 79; 143; 15; 0; 84; 91; 153; 20; 155]);
   (20572, [52; 244; 116; 71; 25; 153; 180; 0; 15; 143; 56; 91; 84; 20; 155; 145; 148; 89; 120; 184; 62; 190]);
   (20581, [0; 64; 52; 91; 219; 89; 244; 25; 65; 153; 155; 56; 116; 148; 32; 160; 96; 143; 92; 62; 190; 20; 30; 7; 159; 31; 132]);
   (20588, [64; 79; 251]);
   (20598, [7; 0; 89; 25; 199; 217; 116; 79; 1; 153; 4; 155; 52; 91; 15; 84; 81; 160; 148; 96; 32; 56]);
   (20599, [244; 52; 7; 71; 15; 89; 143; 56; 25; 17; 20; 53; 148; 79]);
   (20603, [116; 153; 89; 251]);
   (20606, [205]);
   (20607, [120; 116; 52; 71; 153; 246; 79; 25; 143; 218; 56; 160; 148; 68]);
   (20608, [25; 155]);
   (20613, [89; 27; 219; 91; 96; 155; 28; 143; 30; 148; 52]);
   (20616, [32; 219; 158; 91]);
   (20621, [43; 244; 143; 116; 91; 248; 15]);
   (20643, [32; 209; 158; 25]);
   (20645, [79; 198; 64]);
   (20647, [25]);
   (20648, [25; 56; 81; 244; 52; 116; 120; 153; 27; 159; 89; 145; 155; 96; 20; 91; 246; 17; 32; 132; 160]);
   (20649, [205; 25]);
   (20652, [52; 244; 25; 56; 15; 32; 155; 20; 184; 91]);
   (20658, [64; 192; 0; 91; 7; 52; 25; 79; 27; 143; 15; 116; 155; 20; 84]);
   (20666, [251]);
   (20667, [192; 25; 52; 62; 20; 116; 64; 143; 79; 84; 15; 91; 155; 190]);
   (20687, [244; 116; 89; 52; 153; 120; 71; 25; 0; 64; 128; 148; 20; 160; 32; 155; 143; 96; 93]);
   (20694, [205; 155; 29; 91; 157]);
   (20698, [89; 25; 148; 153; 184]);
   (20710, [205]);
   (20711, [91; 217; 25; 89; 155; 96; 17; 93; 15; 27; 218; 148; 32; 153; 143]);
   (20716, [251]);
   (20717, [205]);
   (20718, [89; 25]);
   (20723, [96; 160; 158; 251]);
   (20725, [25; 192; 52; 0; 62; 116; 148; 56; 64; 79; 193; 153; 155; 89; 190; 126]);
   (20731, [64; 194; 0; 25; 143; 153; 155]);
   (20742, [205; 143; 180; 52; 91]);
   (20743, [205]);
   (20747, [30; 205; 91]);
   (20754, [25; 91; 218; 209; 155; 32; 89; 62; 79; 153; 143; 92; 156; 20; 84]);
   (20769, [89; 153; 251; 91]);
   (20799, [89; 217; 25; 102; 91; 86; 71; 153; 107; 116; 84; 99; 155; 171; 148; 158; 126; 64; 150; 96; 160; 43; 20; 88; 218; 143; 79; 31; 159; 15; 93; 106; 32; 81; 76; 52; 17; 180; 68; 97; 161; 145]);
   (20800, [194; 7; 116; 155; 91; 25; 153]);
   (20801, [52; 246; 91; 64; 116; 155; 27; 0; 84; 25; 15; 143; 120]);
   (20803, [86; 214; 99; 227; 89; 43; 25; 171; 155; 153; 27; 91; 96; 184; 32; 116; 148; 30; 107; 92; 68; 94; 158; 93; 0; 29; 160; 180; 79; 156; 35; 159]);
   (20804, [25; 89; 218; 91; 155; 153; 148; 145; 159; 15; 20]);
   (20805, [1; 52; 116; 0; 25; 244; 91; 7; 94; 153; 155; 148; 15; 143; 20; 32; 158; 56; 120; 4; 180]);
   (20806, [155; 214; 89; 35; 91; 96; 246; 25; 79; 32; 160; 86; 218; 156; 153; 36; 52]);
   (20808, [199; 25; 71; 7; 0; 155; 120; 116; 43; 52; 89; 91; 153; 4; 143; 15; 107; 84; 79; 148; 12; 35; 145; 92; 17; 159; 20; 30; 32; 81; 132; 93]);
   (20809, [89; 25; 217; 91; 116; 155; 52; 153; 0; 96; 143; 17; 70; 15; 120; 27; 62; 160; 94; 148; 20; 7; 31; 126; 32; 68; 157; 159; 107; 79; 30; 56; 22; 84; 156; 4; 150; 35; 64; 29; 158; 93; 190; 180; 128; 92; 145; 81; 28; 95; 43]);
   (20811, [155; 91; 89; 227; 158; 94; 153; 214; 86; 93; 27; 96; 52; 99; 29; 30; 160; 116; 157; 32; 35; 25; 159; 95; 15; 31; 156; 132; 79; 22; 64; 92; 143; 180; 150; 56; 120; 148; 68]);
   (20813, [116; 52; 71; 244; 25; 70; 84; 56; 79; 153; 120; 148; 7; 4; 91; 145; 143; 180; 15; 32; 20; 155]);
   (20817, [244; 52; 116; 120; 25; 91; 56; 153; 84]);
   (20820, [218; 25; 89; 91; 153; 79; 15; 155; 143; 116; 148; 20; 107; 43; 32]);
   (20821, [205; 91]);
   (20822, [30; 205; 32; 155; 17; 91; 31]);
   (20826, [89; 217; 25; 95; 153; 31; 159; 42; 116; 17; 102; 32; 27; 91; 94; 81; 96; 160; 148; 20; 143; 15; 79; 30; 120; 155; 132]);
   (20828, [244; 52; 89; 42; 25; 148; 153; 91; 86; 217; 214; 96; 150; 116]);
   (20834, [143; 79; 190; 126; 15; 92]);
   (20837, [116; 89; 244; 52; 25; 143; 153; 30; 91; 79; 148; 120; 84; 145; 155; 29; 15; 0; 81; 56; 160; 20; 132; 159; 17; 180]);
   (20840, [25; 192; 65; 22; 67; 1; 7; 116; 153; 4; 31; 64; 27; 32; 91; 15; 145; 143; 56; 155; 159; 20; 160; 79; 52; 148; 89; 84; 96; 17; 190; 126; 156; 150; 30; 94; 92; 29; 171; 158; 132]);
   (20843, [22; 150; 25; 214; 86; 143; 43; 17; 148; 153; 89; 30; 107; 155; 160; 79; 32; 20; 15; 4; 31; 158; 159; 91; 24; 132; 171; 163; 42; 190; 96; 29; 145]);
   (20844, [25; 153; 52; 1; 150; 35; 43; 4; 89; 218; 91; 163; 159; 22; 27; 155; 0; 120; 148; 196; 158; 56; 7; 143; 31; 15; 81; 160; 64; 20; 132; 116; 30; 79; 17; 71; 32; 145; 84; 184; 102; 230; 94; 96; 180; 93; 29; 156; 68; 3]);
   (20845, [22; 150; 214; 86; 25; 43; 30; 107; 17; 143; 155; 158; 15; 91; 32; 93; 148; 145; 4; 153; 159; 157; 84; 160; 94; 96; 24; 89; 28; 42; 79]);
   (20846, [252; 91; 190; 126; 79; 148; 155; 84]);
   (20848, [94; 91; 158; 155; 160; 27; 209; 153; 30; 89; 159; 25; 29; 96; 93; 157; 32; 219; 92; 31; 81; 35; 218; 150; 17; 52; 143; 22; 79]);
   (20849, [199; 25; 7; 159; 158; 52; 68; 81; 71; 153; 116; 148; 20; 143; 145; 4; 160; 155; 17; 32; 56; 31; 30; 79; 84; 91; 15; 89]);
   (20851, [25; 52; 116; 120; 34; 89; 244; 94; 27; 148; 30; 56; 153; 158; 84; 91; 12; 155; 42; 143; 79; 31; 107; 217; 95; 17; 159; 32; 28; 160; 20; 0; 132; 180; 68; 81; 15]);
   (20852, [52; 64; 68; 25; 244; 116; 94; 91; 30; 158; 155; 0; 120; 15; 84; 159; 89; 143; 96; 62; 153; 71; 148; 7; 17; 93; 20; 190; 32; 126; 27; 92; 95; 29; 145; 160; 31; 156; 65; 79]);
   (20853, [89; 217; 25; 116; 91; 153; 120; 143; 155; 15; 52; 96; 79; 160; 20; 145; 180; 158; 95; 81; 159; 148; 30; 31; 84; 92; 56; 184]);
   (20854, [230; 38; 71; 7; 70; 6; 143; 94; 12; 155; 43; 91; 158; 153; 148; 40; 135; 25; 15; 32; 134; 180; 160; 20; 156; 89; 159; 68; 92; 27]);
   (20855, [52; 89; 0; 246; 116; 86; 148; 84; 214; 153; 143; 6; 25; 155; 160; 91; 20; 96; 15; 158; 79; 180]);
   (20856, [25; 89; 94; 68; 218; 153; 91; 0; 52; 155; 159; 143; 160; 116; 79; 158; 56; 96]);
   (20857, [91; 155; 158; 231; 94; 99; 29; 93; 96; 157; 159; 15; 79; 143; 25; 89]);
   (20859, [116; 89; 244; 52; 56; 25; 153; 27; 155; 148; 120; 143; 15; 91; 20; 160; 0; 79; 180; 17; 132; 32; 84; 29; 159; 30; 145]);
   (20860, [244; 52; 143; 15; 148; 91; 116; 25; 155; 56; 71; 20; 79; 145]);
   (20861, [89; 218; 25; 91; 79; 143; 155; 153; 116; 32; 20; 84]);
   (20864, [30; 209; 27; 145; 219; 159; 116; 31; 81; 91; 158; 155; 25; 120; 17; 89; 32]);
   (20869, [204; 106; 25; 12; 76; 42; 153; 30; 109; 89; 170; 107; 158; 52; 4; 27; 96; 155; 0; 94; 93; 71; 160; 91; 29; 68; 15; 145; 31; 102; 56; 17; 148; 140; 81; 159; 157; 84; 116; 143; 135; 79; 120; 20; 64; 32; 62]);
   (20872, [94; 158; 30; 89; 93; 32; 29; 96; 27; 25; 153; 91; 157; 159]);
   (20873, [27; 71; 7; 91; 219; 155; 255]);
   (20876, [116; 89; 227; 86; 52; 153; 214; 25; 84; 91; 159; 155; 79; 81; 96; 30]);
   (20877, [199; 7; 71; 52; 6; 155; 15; 143; 25; 20; 91; 29; 79; 148; 153; 56; 160; 17]);
   (20882, [244; 52; 116; 25; 120; 0; 143; 15; 56; 153; 89; 190; 62; 148; 53; 145; 4; 184; 84; 91]);
   (20885, [116; 218; 89; 143; 91; 29; 30; 153; 155; 25]);
   (20887, [194; 0; 25; 64; 71]);
   (20889, [244; 52; 116; 25; 89; 153; 79; 56; 68; 91; 120; 81; 180; 143; 155; 160; 32]);
   (20891, [89; 25; 217; 91; 116; 81; 95; 159; 155; 42; 4; 153; 143; 17; 148; 20; 92; 120; 31; 79; 30; 52; 158; 15; 84; 132; 56; 145; 160; 96; 180; 171; 93; 32]);
   (20892, [25; 218; 17; 89; 159; 153; 27; 32; 20; 96; 31; 91; 116; 81; 52; 68; 160; 132; 155; 158; 4; 145; 148; 93; 30; 120; 84; 94; 29; 79; 143]);
   (20896, [25; 244; 89; 155; 91; 52; 20; 143; 15; 116; 153; 32; 79; 68; 81; 148; 17; 160; 96; 156; 30; 209; 84; 158; 4; 56]);
   (20898, [218; 155; 89; 93; 91; 15]);
   (20900, [25; 244; 52; 116; 143; 17; 15; 89; 79; 148; 20]);
   (20901, [218; 25; 20; 148; 64; 56; 91; 15; 0; 155; 143; 52; 116]);
   (20908, [43; 236; 25; 116; 107; 52; 91; 89; 155; 17; 27; 20; 171; 148; 29; 30; 84; 4; 153; 32; 158; 143; 97; 56; 180; 0; 161; 126; 156; 160]);
   (20911, [27; 219; 214; 91; 155; 28; 30; 93; 143]);
   (20912, [25; 217; 155; 91; 62; 43; 158; 116; 52; 153; 89; 27; 30; 120; 42; 15; 190; 126; 79; 31; 29; 143; 32; 92; 171; 148; 159]);
   (20914, [244; 56; 52; 25; 89; 91; 116; 0; 34; 120; 79; 190; 126; 155; 143; 62; 153; 30; 94; 15; 92; 156; 32; 160; 20; 96; 3; 180; 158]);
   (20915, [52; 116; 25; 199; 65; 120; 7; 244; 153; 180; 56; 79; 148; 15; 84; 64; 91; 143; 68; 155; 246; 145; 20; 160]);
   (20917, [89; 70; 6; 84; 219; 27; 143; 148; 91; 153; 7; 218; 25; 155; 79; 159]);
   (20918, [25; 81; 52; 246; 94; 155; 91; 116; 56; 158; 64; 159; 89; 120; 148; 156; 31; 0]);
   (20919, [192; 25; 52; 0; 64; 27; 56; 126; 62; 91; 7; 94; 148; 116; 190; 89; 120; 153; 3; 15; 30; 155; 68; 180; 79; 43; 160; 143; 32; 17; 20; 81; 29; 4; 158; 135]);
   (20923, [52; 244; 116; 25; 89; 120; 153; 171; 79; 155; 143; 148; 84; 91; 4; 160]);
   (20924, [27; 219; 28]);
   (20925, [64; 91; 205]);
   (20928, [25; 192; 64; 52; 116; 153; 190; 126; 79; 91; 160; 158; 84; 143; 62; 155; 148; 30; 0; 96; 89; 32]);
   (20932, [0; 194; 62; 3; 64; 15; 190; 143; 79; 126]);
   (20934, [52; 89; 116; 192; 25; 0; 30; 153; 184; 160; 91; 148; 180; 64; 7; 56; 171; 159; 71; 32; 155; 68; 20; 1; 92; 17; 81; 79; 135; 143]);
   (20935, [251; 89; 91; 155]);
   (20937, [244; 64; 25; 91; 0; 126; 116; 155; 29; 158; 30; 94; 67; 62; 84; 153; 52; 32; 79; 107; 190; 209; 148; 89; 192; 56]);
   (20939, [52; 0; 246; 143]);
   (20940, [27; 43; 52; 0; 219; 91; 155; 116; 89; 158; 30; 143; 32; 94; 56; 120; 246; 25; 148; 28; 190; 96; 126; 160; 218; 29; 156; 20]);
   (20943, [52; 116; 56; 244; 25; 120; 143; 17; 79; 153; 32; 20; 84; 160]);
   (20945, [244; 52; 64; 0; 116; 132; 79; 91; 190; 62; 1; 120; 84]);
   (20955, [62; 143; 79; 126; 0; 155]);
   (20957, [52; 153; 246; 25; 0; 120; 27; 91; 155; 32; 116; 143; 62; 20; 56; 89; 160; 64]);
   (20960, [22; 7; 150; 214; 25; 30; 38; 86; 89; 155; 79; 158; 20; 84; 148; 70; 143; 102; 71; 24; 15; 91; 153; 93; 17; 52; 152]);
   (20961, [199; 7; 126; 25; 91; 71; 30; 64; 27; 155; 94; 84; 116; 93; 143; 148; 15; 42; 79; 145; 29; 157; 22; 190; 0; 20; 153]);
   (20964, [27; 155; 25; 91; 30; 218; 219; 89; 32; 153; 15; 143; 94; 79; 96; 29; 160; 158; 93; 148]);
   (20971, [52]);
   (20973, [226; 34; 25; 116; 7; 89; 52; 30; 79; 91; 143; 155; 4; 15; 153; 148]);
   (20975, [91; 27; 29; 219; 155; 25; 32; 52; 30; 158; 96; 218; 15; 116; 94; 92; 153; 157; 93]);
   (20976, [89; 158; 218; 160; 91; 84; 153; 96; 143; 155; 251]);
   (20979, [89; 218; 25; 91; 84]);
   (20982, [192; 0; 25; 89; 116; 15; 143; 3; 52; 1; 62; 148; 56]);
   (20984, [52; 194; 25; 246; 89; 148; 160; 20; 0; 56; 155; 153; 91; 143]);
   (20985, [192; 52; 25; 89; 20; 32; 64; 91; 56; 148; 92]);
   (20986, [52; 116; 244; 56; 25; 64; 89; 0; 86; 15; 184; 143; 79; 153; 159; 120; 20; 148; 180; 17; 57; 22; 84; 150; 128; 4; 145; 214; 155; 91; 32; 29; 160; 68]);
   (20987, [116; 120; 52; 153; 246; 79; 68; 148; 89; 84; 91; 155; 143; 25; 56; 96; 15; 159]);
   (20988, [205; 30; 155; 91]);
   (20989, [25; 217; 89; 148; 116; 153; 91; 52; 56; 155; 17; 159; 143]);
   (20991, [244; 116; 64; 52; 25; 143; 79; 84; 89; 91; 15; 148; 20]);
   (20992, [217; 89; 25; 86; 116; 143; 15; 91; 153; 180; 155; 148; 79; 84; 4; 96; 214; 160; 227; 158; 28; 20]);
   (20993, [27; 192; 0; 52; 25; 15; 116; 219; 153; 91; 148; 28; 56]);
   (20995, [218; 89; 143; 153; 79; 25; 91; 155; 52; 116]);
   (20998, [52; 89; 56; 25; 227; 7; 86; 71; 153; 65; 116; 214; 84; 150; 22; 148; 88; 143; 35; 4; 20; 152; 0; 15; 64; 99; 91; 120; 30; 159; 155; 107; 79; 17; 128; 180; 32; 93; 68; 160; 42; 81; 29; 190; 126; 163]);
   (20999, [102; 65; 64; 52; 244; 1; 25; 116; 7; 143; 120; 79; 20; 155; 56; 153; 29; 91; 148; 89; 71; 190; 126; 15; 84; 30; 4; 32; 157; 94; 62; 0; 158; 31; 160; 93; 96; 27]);
   (21000, [246; 52; 91]);
   (21002, [89; 52; 25; 116; 218; 102; 246; 153; 91; 148; 155; 96; 17; 160]);
   (21005, [116; 52; 153; 25]);
   (21006, [116; 205]);
   (21009, [25; 217; 89; 116; 4; 17; 84; 27; 20; 153; 15; 143; 120; 79; 32; 52; 155; 159; 160]);
   (21010, [89; 52; 116; 244; 153; 148; 0; 4; 25; 96; 159; 143; 120; 84; 71; 81; 91; 132; 180; 68; 20; 56; 92; 15; 155; 160]);
   (21014, [205]);
   (21015, [86; 116; 244; 52; 89; 99; 25; 153; 68; 94; 27; 155; 158; 56; 30; 91; 29; 143; 214; 157; 180; 81; 84; 15; 159; 148; 93; 31; 22; 184; 120; 132; 35; 150; 160]);
   (21016, [27; 219; 28; 155; 91; 30; 25; 29; 31; 32; 17; 94; 158]);
   (21017, [199; 89; 70; 86; 155; 64; 135; 91; 116; 214; 153; 148; 94; 143; 158; 79; 45; 20; 28; 65; 84; 156; 157; 68]);
   (21018, [199; 7; 71; 43; 91; 25; 89; 0; 153; 30; 155; 15; 27; 79; 92; 158; 3; 64; 148; 143; 94; 31]);
   (21019, [25; 52; 56; 89; 246; 116; 17; 120; 153; 32; 96; 91; 81; 31; 160; 148; 155; 159; 143; 15; 145; 4; 68]);
   (21021, [204; 107; 7; 12; 71; 43; 25; 52; 4; 91; 68; 20; 27; 155; 171; 56; 143; 15; 96; 153; 116; 84; 160; 102; 88; 79; 148; 17; 92; 32; 81; 145]);
   (21024, [52; 244; 116; 15; 56; 25; 91]);
   (21028, [52; 120; 116; 244; 56; 25; 153; 89; 15; 84; 155; 91; 160]);
   (21032, [244; 25; 15; 52; 89; 153; 32]);
   (21033, [25; 89; 52; 158; 153; 94; 64; 217; 180; 120; 155; 91; 116; 0; 65; 27; 96; 148; 93; 30; 160; 84; 159; 143; 157; 29; 79; 32; 132; 184; 68; 20; 15; 31; 92; 81; 156; 190; 62; 95; 56; 171]);
   (21035, [71; 38; 199; 89; 116; 64; 25; 52; 158; 27; 0; 153; 15; 79; 180; 143; 6; 20; 120; 4; 160; 91; 155; 32; 7; 184; 148; 29; 159; 94; 62; 190; 84; 30; 157]);
   (21037, [205; 91]);
   (21038, [244; 52; 116; 25; 15; 153; 56; 143; 190; 32; 62; 89; 20; 126]);
   (21040, [244; 116; 7; 52; 84; 56; 148; 20; 143; 64; 120; 79; 25; 155; 153; 160; 145; 91]);
   (21043, [205]);
   (21046, [116; 52; 25; 89; 244; 120; 153; 56; 148; 68; 143; 91; 180; 81; 159; 132; 84; 96; 155; 160; 32; 145; 184; 79; 29; 64; 20; 135]);
   (21047, [116; 52; 244; 120; 153; 190; 126; 25; 89; 84; 62; 33; 160; 32]);
   (21048, [89; 25; 153; 159; 218; 95; 180; 96; 84; 160; 158; 148; 79; 145]);
   (21049, [43; 25; 244; 171; 89; 52; 148; 158; 91; 93; 116; 160]);
   (21050, [52; 244; 25; 116; 89; 0; 120; 62; 153; 148; 91; 155; 30; 143; 33; 180; 32; 84; 160; 96; 56]);
   (21051, [71; 89; 86; 64; 244; 102; 52; 25; 116; 79; 7; 171; 0; 15; 150; 153; 1; 84; 148; 143; 152; 91; 107; 56; 120; 29; 35]);
   (21053, [25]);
   (21055, [205]);
   (21056, [91; 251; 155]);
   (21057, [244; 52]);
   (21058, [89; 218; 25; 227; 96; 116; 153; 91; 148]);
   (21059, [244; 56; 25; 52; 153]);
   (21066, [52; 116; 244; 153; 64; 0; 68; 25; 15; 120; 91; 20; 89; 155; 160; 96; 4]);
   (21068, [244; 155; 97]);
   (21069, [204; 107; 76; 25; 12; 52; 116; 106; 43; 38; 42; 15; 64; 143; 91; 148; 4; 20; 71; 94; 79; 155; 68; 153; 17; 84; 30; 32; 93; 140; 158; 92; 170; 89; 29; 171; 160; 180; 65; 159; 120; 134; 31; 96]);
   (21072, [244; 79]);
   (21073, [217; 89; 91; 155; 25; 30; 31; 116; 96; 79; 120; 159; 143; 15; 84; 32; 153; 148; 156; 92; 27; 29]);
   (21076, [52; 116; 244; 143; 217; 84; 25; 0; 15; 32]);
   (21078, [52; 153; 25; 116; 244; 56; 79; 148; 15; 91; 155]);
   (21084, [244; 15]);
   (21086, [251]);
   (21089, [244; 30; 91]);
   (21093, [52; 244; 25; 116; 120; 56; 79; 91; 143; 148; 33; 32]);
   (21095, [89; 25; 116; 0; 217; 71; 153; 159; 52; 102; 148; 158; 180; 56; 96; 17; 160; 155]);
   (21097, [20; 52; 116; 244; 25; 56; 84; 143; 148; 155; 91]);
   (21098, [244; 25; 56; 52; 116; 120; 89; 32; 155; 15; 91; 160]);
   (21103, [196; 25; 86; 143; 68; 145; 4; 89; 153; 116; 148; 214; 155; 81; 79]);
   (21106, [116; 244; 52; 84; 89; 153; 25; 148; 56; 29; 79; 143; 120; 171; 15; 160]);
   (21117, [0; 52; 56; 25]);
   (21119, [244; 116; 52; 120; 56]);
   (21121, [244]);
   (21122, [251]);
   (21128, [244; 7; 52; 15; 25; 33; 89; 20; 161; 116; 79; 32; 56]);
   (21139, [205]);
   (21147, [89; 25; 217; 71; 116; 65; 153; 64; 52; 91; 84; 148; 155; 96; 79; 143; 32; 15; 68; 93; 160; 159; 120; 158; 95; 20; 156; 29; 28; 92; 132; 81; 157; 94; 180]);
   (21149, [244; 52; 116; 56; 91; 25; 32; 158; 84; 155; 94; 159; 15]);
   (21150, [25; 244; 116; 52; 56; 89; 153; 81; 120; 159; 68; 148; 91; 79; 95; 17; 145; 96; 32; 84; 155]);
   (21151, [25; 64; 217; 89; 153; 116; 91; 132; 143; 15; 92; 79; 180; 148; 155; 20; 120; 32; 158; 56; 84; 93; 96; 159]);
   (21152, [52; 116; 71; 244; 56; 158; 30; 25; 153; 27; 94; 6; 155; 91; 29; 159; 143; 120; 96; 7; 180; 35; 93; 31; 89; 148; 32; 160; 4; 20; 79; 84; 157; 22; 15; 134; 150; 145; 17; 117; 81]);
   (21153, [89; 120; 153; 159; 68; 199; 7; 52; 148; 84; 143; 81; 218; 155; 91; 79; 25; 160; 201; 93; 145; 116; 246; 30; 156; 132; 171]);
   (21154, [205; 91]);
   (21155, [64; 25; 89; 192; 4; 148; 81; 68; 194; 52; 218; 116; 143; 155; 15; 84]);
   (21160, [120; 116; 25; 153; 89; 244; 64; 52; 71; 148; 65; 84; 68; 143; 79; 96; 184; 17; 3; 0; 160; 7; 132; 180; 20; 91; 159; 15; 56; 171; 158; 155; 128; 95; 67; 32; 4]);
   (21161, [116; 120; 180; 25; 244; 52; 153; 56; 4; 89; 143; 91; 68; 79; 71; 148; 15; 20; 64; 17; 155; 132; 158; 84; 160; 32; 145]);
   (21162, [1; 155; 244; 29; 91; 52; 158; 148; 30; 94; 157; 93; 153; 27]);
   (21163, [116; 244; 52; 217; 25; 143; 89; 91; 153; 79; 56; 15; 43; 148; 120; 84; 20; 155]);
   (21164, [205; 0; 91]);
   (21165, [91; 205; 155; 92]);
   (21169, [116; 120; 25; 15; 219; 27; 91; 153; 155; 52; 246; 84]);
   (21170, [64; 217; 25; 116; 135; 89; 155; 52; 153; 91; 128; 0; 71; 84; 143; 79; 180; 32]);
   (21171, [56; 25; 64; 148; 244; 27; 20; 89; 52; 0; 116; 155; 79; 153; 143; 159; 91; 158; 15; 157; 96; 31; 32; 93; 29; 84; 30; 43; 94; 65; 17; 160; 1; 81; 171; 120]);
   (21182, [116; 205; 91; 155]);
   (21183, [89; 25; 218; 116; 71; 143; 7; 117; 15; 79; 153; 91; 148; 84; 0; 20; 155; 96; 158; 94; 64]);
   (21187, [79; 143; 194; 56; 64; 155; 91; 32; 62; 15; 30; 148; 126; 96; 65; 89; 84; 27; 29; 52; 20; 158; 190; 25; 180; 93]);
   (21191, [91; 25; 0; 217; 64; 52; 71; 155; 79; 143; 153; 89; 84; 68; 15; 92; 194; 1; 116; 148; 219; 199; 20; 180; 81]);
   (21193, [52; 246; 65; 91; 116; 64; 15; 155; 190; 62; 79; 201; 30]);
   (21195, [91; 25; 218; 89; 155; 32; 116])].
Definition pos_chars_2 : list (char * list N) :=
  [(21200, [205; 30; 91; 29; 155]);
   (21202, [91; 244; 158; 155; 93; 96; 94; 89; 52; 29; 25; 153; 116; 157; 143; 159; 30; 160; 32]);
   (21206, [205; 91; 155]);
   (21208, [56; 52; 246; 116; 25; 153; 81; 155]);
   (21215, [52; 246; 64; 116; 120; 56; 25; 153]);
   (21220, [89; 0; 192; 64; 25; 91; 52; 1; 155; 116; 120; 153; 20; 81; 145; 15; 30; 159; 62; 190; 94; 65; 93; 96; 17; 158; 143; 84; 160; 79; 148]);
   (21232, [205; 91; 155]);
   (21242, [227; 89; 25; 91; 86; 218; 155; 214; 116; 29; 96; 153]);
   (21246, [52; 244; 25; 27; 29; 190; 126; 15; 143; 91; 62; 89; 96]);
   (21247, [199; 71; 116; 25; 143; 155; 91; 15; 20; 148]);
   (21248, [64; 244; 0; 65; 116; 94; 7; 4; 120; 155; 20; 158; 160; 91; 192; 25; 126; 62]);
   (21253, [52; 244; 25; 89; 27; 116; 56; 153; 86; 30; 148; 32; 214; 143; 79; 15; 20; 155; 84; 91; 81; 96; 31; 4; 160; 64; 120; 28; 158]);
   (21254, [62; 126; 0; 135; 71; 190; 1; 79; 143; 155; 91]);
   (21256, [25; 30; 209; 32; 31]);
   (21261, [52; 25]);
   (21263, [251; 155]);
   (21264, [116; 251; 153]);
   (21269, [25; 143]);
   (21270, [116; 120; 25; 89; 153; 244; 81; 52; 160; 148; 94; 20; 91; 155; 159; 96; 84; 145; 27; 158; 143; 15; 79; 107; 64; 56; 68; 171; 95; 29; 30; 32; 31; 4; 93; 156; 71; 92]);
   (21271, [30; 204; 12; 94; 106; 76; 25; 43; 158; 140; 31; 27; 17; 42; 153; 32; 171; 52; 4; 159; 155; 91; 145; 89; 148; 20; 84; 79; 81; 143; 116; 170; 29; 96; 160; 93; 157; 15; 156]);
   (21273, [89; 153; 25; 93]);
   (21277, [227; 246; 25; 190; 126; 91; 89]);
   (21280, [89; 218; 25; 153; 91; 79; 143; 15; 148; 84; 94]);
   (21281, [155; 27; 219; 52; 91; 143; 246; 15]);
   (21283, [25; 89; 94; 153]);
   (21286, [205]);
   (21290, [89; 218; 25; 116; 15; 201; 148; 120; 91; 153]);
   (21294, [52; 246; 143; 79]);
   (21305, [86; 52; 89; 227; 160; 30; 214; 153; 25; 56; 143; 15; 159; 91; 158; 246; 7; 93; 32; 29]);
   (21306, [89; 25; 94; 217; 106; 52; 153; 28; 102; 95; 81; 91; 42; 4; 68; 27; 116; 159; 84; 96; 62; 126; 56; 148; 12; 20; 160; 132; 180; 155; 17; 79; 32; 93; 184; 120]);
   (21307, [25; 89; 244; 17; 153; 159; 116; 4; 52; 91; 160; 218; 56; 81; 148; 84; 155; 143; 30; 120; 79; 145; 32; 68]);
   (21310, [217; 25; 89; 155; 96]);
   (21311, [116; 246; 52; 143; 25; 91; 56; 153; 120]);
   (21313, [150; 22; 7; 214; 86; 43; 17; 25; 20; 62; 32; 148; 15; 153; 24; 155; 30; 79; 143; 157; 160; 107; 116; 159; 89; 52; 91; 152; 158; 84; 31; 4; 145; 180; 96]);
   (21315, [22; 150; 163; 86; 214; 15; 35; 25; 143; 148; 27; 30; 155; 20; 89; 79; 7; 24; 91; 160; 4; 153; 116; 152; 32; 92; 84; 156; 88; 158]);
   (21317, [160; 214; 86; 22; 150]);
   (21319, [116; 52; 244; 56; 91; 153; 25; 86; 155; 84; 20; 99; 29; 0; 96; 143; 32; 120; 94; 93; 92; 89; 17; 30; 79; 157; 148; 160; 4; 88]);
   (21320, [107; 43; 236; 25; 30; 160; 153; 52; 86; 171; 91; 155; 89; 150; 148; 84; 17]);
   (21321, [89; 218; 91; 153; 155; 159]);
   (21322, [22; 214; 171; 25; 86; 158; 153; 150; 71; 43; 15; 116; 42; 143; 148; 4; 20; 27; 30; 7; 107; 155; 76; 24; 52; 89; 79; 62; 91; 180; 190; 145; 32; 56]);
   (21326, [30; 209; 96; 32; 25; 91; 27; 158; 153; 159; 64; 116; 155; 89; 31; 0; 81; 94; 160; 92; 120; 143; 29; 17; 79; 93; 28; 150; 4; 95; 84; 15; 156; 20; 35; 157; 148; 171; 22; 126]);
   (21327, [25; 52; 159; 81; 246; 95; 116; 56; 160; 153; 32; 143; 91; 89; 31; 17; 148; 155; 7; 201; 145; 15; 4]);
   (21329, [89; 25; 0; 194; 158; 64; 143; 79; 30; 153; 20; 15; 91; 3; 160; 148]);
   (21330, [218; 89; 246; 91; 79; 64; 25; 143; 155; 116; 201; 52]);
   (21331, [0; 27; 91; 219; 155; 15; 143; 25; 62; 158; 52; 30; 29; 126; 32; 156; 20]);
   (21333, [25; 199; 64; 89; 4; 0; 7; 27; 116; 71; 81; 70; 52; 32; 153; 148; 15; 91; 190; 126; 155; 180; 94; 143; 20; 158; 30; 145; 150; 93; 184; 28; 132]);
   (21334, [244; 116; 52; 25; 153; 0; 143; 20; 15; 155; 56; 84; 120; 148; 89; 159; 79; 32; 160; 180; 96]);
   (21335, [94; 30; 204; 12; 158; 76; 106; 43; 25; 27; 153; 140; 159; 91; 155; 17; 89; 31; 32; 29; 56; 160; 52; 42; 93; 20; 148; 4; 143; 81; 15; 145; 98; 96; 170; 84; 157; 92; 28]);
   (21338, [25; 91; 27; 219; 52; 155; 158; 30; 116; 153; 0; 218; 56; 246; 94; 64; 209; 15; 29; 145; 20; 84; 96; 93; 32; 143; 81; 160; 79; 120; 17; 157; 159; 126; 92; 31; 148]);
   (21340, [89; 219; 27; 155; 116; 153; 91; 157; 25; 218; 246; 52; 156; 158; 143; 148; 84; 28; 93]);
   (21342, [27; 219; 91; 155]);
   (21343, [251]);
   (21344, [244; 52; 116; 27; 25; 153; 155; 91; 158; 120; 20; 143; 56; 160; 84; 79; 156]);
   (21345, [27; 217; 89; 25; 155; 29; 91; 30; 32; 94; 158; 153; 93; 116; 160; 52; 157; 99; 96; 35; 244; 148; 4; 102; 120; 81; 31; 159; 88]);
   (21346, [27; 30; 25; 209; 155; 91; 219; 89; 94; 29; 158; 28; 32; 153; 157; 93; 160; 35; 96]);
   (21347, [205; 91]);
   (21348, [25; 217; 244; 52; 89; 160; 153; 0; 32; 96]);
   (21350, [217; 89; 116; 153; 91; 158; 120; 25; 79; 227]);
   (21351, [244; 25; 30; 116; 52; 143; 4; 20; 15; 89; 91; 84; 153; 180; 56; 79; 158; 120]);
   (21355, [25; 116; 3; 153; 89; 244; 91; 27; 155; 120; 31; 159; 160; 81; 94; 96; 158; 93; 32; 4; 29; 30; 17; 148; 52; 84; 219; 143; 180; 79; 20; 43; 145; 156]);
   (21358, [205; 91]);
   (21359, [86; 116; 84; 89; 143; 148; 150; 15; 79; 43; 25]);
   (21360, [30; 25; 244; 52; 116; 89; 32; 56; 27; 153; 159; 91; 31; 17; 155; 96; 120; 148; 79; 160; 68; 145; 84; 143; 29]);
   (21361, [25; 3; 52; 0; 148; 89; 219; 15; 116; 64; 79; 143; 27; 30; 218; 91; 209; 32; 126; 120; 246; 194; 84; 155; 153; 17; 158; 31; 93; 92; 145]);
   (21363, [244; 71; 6; 7; 52; 143; 43; 116; 30; 4; 25; 148; 155; 79; 15; 20; 32]);
   (21364, [199; 7; 52; 116; 27; 120; 153; 143; 84; 15; 160; 155; 96; 158]);
   (21365, [217; 25; 116; 89; 153; 120; 4; 171; 155; 79; 148]);
   (21367, [86; 227; 214; 89; 25; 52; 116; 15; 148; 153; 96; 91; 143; 20; 68; 32; 102; 30; 155; 158; 120; 42; 79; 81; 56; 4]);
   (21368, [244; 52; 116; 120; 153; 155; 96; 32; 15; 143; 145]);
   (21370, [116; 205]);
   (21375, [91; 219; 89; 218; 27; 155; 158; 92; 15; 143; 79; 148]);
   (21378, [89; 25; 217; 116; 153; 95; 94; 102; 17; 180; 91; 158; 155; 81; 148; 30; 160; 4]);
   (21380, [209; 30; 25; 155; 91; 29; 93; 157; 94; 67; 89; 31; 32; 180]);
   (21381, [89; 217; 25; 95; 91; 94; 106; 132; 4; 160; 155; 17; 79; 96]);
   (21382, [25; 89; 52; 116; 7; 244; 107; 158; 27; 96; 4; 199; 91; 30; 15; 153; 20; 143; 159; 94; 71; 155; 157; 148; 246; 29; 171; 132; 84; 120; 68; 160]);
   (21385, [0; 65; 7; 64; 79; 27; 219; 25; 143; 155; 91; 52; 15; 28; 20; 194]);
   (21387, [25; 89; 116; 244; 52; 153; 120; 56; 7; 190; 126; 96; 68; 20; 143; 32; 160; 148; 4; 84; 81; 15]);
   (21388, [52; 116; 246; 143; 56; 79; 25; 89; 84; 148; 153; 64; 91]);
   (21389, [205; 27; 91]);
   (21397, [25; 89; 218; 153; 116]);
   (21400, [22; 35; 227; 150; 163; 94; 99; 56; 155; 158; 52; 89; 25; 79; 153; 143]);
   (21402, [192; 64; 25; 0; 91; 62; 190; 89; 155; 79; 32; 143; 15; 52; 116; 153; 84; 71; 7; 148; 68; 31; 126]);
   (21405, [158; 93]);
   (21407, [25; 89; 196; 7; 94; 52; 0; 153; 116; 27; 91; 20; 158; 4; 155; 15; 93; 56; 30; 159; 79; 32; 143; 120; 68; 96; 180; 148; 42; 95; 17; 160; 81; 84; 132]);
   (21410, [89; 25; 227; 218; 160; 143; 91; 96; 4; 148; 158; 79; 93]);
   (21411, [205]);
   (21413, [89; 230; 116; 160; 91; 155; 153; 143]);
   (21414, [30; 89; 209; 31; 94; 79; 95; 160; 32; 91; 155; 143; 25; 218; 96; 17]);
   (21416, [25; 218; 89; 116; 96; 30; 17]);
   (21417, [89; 25]);
   (21422, [52; 89; 143; 56]);
   (21430, [205]);
   (21435, [244; 116; 107; 43; 52; 25; 143; 57; 79; 84; 148; 155; 153; 32; 190; 126; 91; 89; 15; 20]);
   (21439, [94; 217; 25; 89; 102; 91; 4; 155; 153; 93; 158; 17; 116; 132; 56; 84; 95; 30; 159]);
   (21441, [214; 22; 91; 86; 150]);
   (21442, [52; 25; 217; 89; 153; 209; 56; 148; 91; 155; 0; 159; 15; 62; 143; 17; 158; 81; 32; 20; 96; 92; 246; 31]);
   (21448, [199; 25; 148; 155; 20; 91; 143; 160; 27; 6]);
   (21449, [217; 153; 116; 244; 89; 91; 52; 120; 25; 68; 155; 84; 148; 96]);
   (21450, [198; 70; 116; 6; 1; 94; 79; 143; 158; 7; 34; 153; 52; 91; 25; 89; 98; 155; 160; 84; 159; 148; 92; 180; 132; 15]);
   (21451, [89; 25; 0; 218; 91; 155; 217; 84; 116; 30; 96; 79; 153; 27; 52; 81; 160; 148; 159; 32; 158; 143; 29; 31; 92; 120; 17; 94; 93; 68]);
   (21452, [25; 214; 22; 86; 4; 27; 32; 155; 102; 7; 30; 158; 150; 91; 143; 17; 52; 116; 43; 148; 79; 15; 81; 20; 31; 156; 92; 29; 145; 94; 153; 24; 160; 96]);
   (21453, [52; 244; 7; 56; 116; 25; 153; 0; 6; 148; 143; 12; 15; 17; 70; 20; 79; 32; 68; 120; 81; 160; 4; 180; 84; 145; 31]);
   (21457, [52; 56; 116; 25; 244; 153; 0; 20; 89; 81; 71; 159; 96; 120; 79; 214; 148; 91; 155; 86; 160; 143; 68; 17; 84; 15; 32; 158; 95; 145; 43; 4; 94; 132; 93; 180; 156; 30; 64; 88; 152; 92]);
   (21460, [217; 91; 89; 25; 155; 153; 93; 29; 32; 156]);
   (21462, [116; 52; 244; 25; 15; 143; 56; 91; 153; 148; 84; 155; 64; 79; 120; 17; 145; 20; 32; 93; 160; 159; 158]);
   (21463, [244; 52; 116; 25; 64; 20; 153; 0; 143; 79; 56; 84; 15; 148; 155; 68; 160; 91; 120; 180; 30]);
   (21464, [56; 52; 116; 244; 25; 148; 89; 120; 96; 79; 153; 20; 126; 15; 84; 155; 143; 64; 32; 160; 81; 91; 180; 68; 4; 132]);
   (21465, [52; 244; 30; 25; 116; 56; 91; 155; 89; 153; 20; 148; 31; 79; 158]);
   (21467, [52; 25; 116; 143; 120; 56; 153; 79]);
   (21471, [205; 91; 89; 155; 143]);
   (21472, [116; 244; 86; 52; 171; 25; 126; 153; 160; 132; 150; 190; 56; 62; 91; 143; 155; 89; 96; 120; 148; 84; 15; 30]);
   (21475, [89; 120; 227; 25; 86; 106; 153; 94; 116; 143; 42; 52; 158; 159; 91; 71; 64; 56; 79; 84; 15; 132; 155; 148; 93; 30; 214; 20; 160; 152; 81; 180; 135; 88; 65; 96; 166; 68; 145; 7; 128; 4; 0]);
   (21476, [25; 43; 192; 94; 153; 0; 27; 30; 158; 4; 120; 71; 91; 89; 148; 160; 107; 155; 52; 116; 143; 157; 32; 29; 15; 159; 171; 7; 93; 20; 31; 79; 126; 190; 62; 28; 84; 135; 145; 96; 64; 68]);
   (21477, [86; 227; 89; 25; 134; 99; 35; 158; 79; 214; 143; 30; 116; 150; 84; 20; 71; 148; 153]);
   (21478, [230; 6; 7; 25; 15; 52; 20; 91; 155; 143]);
   (21480, [116; 126; 190; 52; 120]);
   (21481, [52; 246; 25; 116; 155; 91]);
   (21482, [199; 86; 7; 52; 6; 214; 89; 15; 70; 91; 4; 20; 71; 143; 25; 79; 153; 158; 180]);
   (21483, [244; 52; 116; 25; 79; 153; 120; 91; 15; 56; 148; 155; 143; 0; 4; 126; 156; 30]);
   (21484, [52; 219; 116; 91; 246; 218; 153; 155; 25; 56; 158; 94; 120; 15]);
   (21485, [89; 225; 153; 161; 97; 25; 96; 33; 84]);
   (21486, [52; 244; 33; 148; 161; 91; 20; 143; 155]);
   (21487, [52; 244; 6; 116; 0; 25; 143; 20; 148; 155; 71; 135; 153; 91; 89; 120; 134; 15; 56; 79; 7; 4; 32; 93; 62; 158; 84; 180; 30; 160; 29; 159; 31; 92; 157; 94; 96; 145]);
   (21488, [89; 30; 227; 116; 25; 86; 94; 42; 158; 214; 153; 95; 17; 91; 155; 27; 31; 84; 96; 160; 93; 81; 143; 4; 102; 159; 148; 145; 106; 32; 71; 132; 88; 92; 79; 68; 35; 180; 29; 22; 157; 150]);
   (21489, [52; 15; 116]);
   (21490, [89; 218; 25; 27; 153; 91; 148; 4; 158; 159; 96; 155; 15; 116; 84; 30; 143; 145; 79; 29; 32; 20; 68; 157; 28; 94; 81; 160]);
   (21491, [86; 204; 25; 12; 150; 143; 42; 4; 153; 91; 89; 30; 155; 148; 84; 158; 145; 116; 68; 29; 79; 156; 93; 81; 32]);
   (21493, [52; 143]);
   (21494, [89; 27; 25; 217; 153; 107; 209; 91; 244; 86; 30; 155; 76; 219; 96; 143; 79; 214; 93; 29; 160; 94; 28; 32; 84; 15; 218; 158; 227; 159; 148; 171; 20]);
   (21495, [89; 227; 214; 25; 52; 86; 116; 153; 96; 68; 143; 91; 20; 148; 84; 79; 184; 120; 160; 155; 132]);
   (21496, [89; 25; 27; 218; 95; 153; 99; 217; 91; 155; 84; 116; 94; 15; 86; 29; 28; 31; 143; 160; 30; 158; 159; 180; 52; 17; 4; 81; 79; 32; 93; 132; 145; 96]);
   (21497, [244; 116; 52; 91; 153; 79; 143; 15; 148; 64; 120; 25; 84]);
   (21499, [205; 94; 158]);
   (21500, [244]);
   (21501, [33; 225; 161; 97; 89; 52; 20]);
   (21505, [116; 143; 246; 79; 190; 126; 52; 202; 91; 153; 225; 155]);
   (21507, [244; 52; 0; 116; 143; 64; 25; 20; 148; 89; 15; 153; 84; 79; 91; 17; 180]);
   (21508, [38; 230; 148; 20; 0; 15; 158; 93; 91; 94; 155; 52; 143; 157; 62; 153; 30; 4]);
   (21510, [52; 244; 25; 20; 56; 148; 91]);
   (21512, [116; 52; 120; 25; 153; 56; 0; 244; 159; 89; 148; 132; 30; 128; 91; 143; 79; 20; 160; 158; 155; 81; 15; 94; 68; 32; 4; 84; 96; 17; 7; 31; 180; 145; 184; 64; 71; 170; 93; 29; 190; 126; 92]);
   (21513, [27; 30; 155; 25; 209; 91; 158; 29; 94; 0; 160; 93; 32; 31; 79; 143; 153; 15; 89; 157; 126; 20; 116; 159; 17; 84; 148; 96; 92]);
   (21514, [244; 25; 52; 116; 143; 89; 32; 20; 15; 153; 56; 155; 30; 148; 79; 4]);
   (21516, [64; 226; 6; 25; 7; 17; 71; 52; 116; 89; 4; 12; 134; 153; 53; 143; 79; 94; 98; 148; 15; 91; 30; 155; 159; 56; 84; 120; 27; 32; 38; 20; 43; 183; 158; 29; 31; 160; 92; 22; 96; 180; 81; 132; 170]);
   (21517, [25; 116; 227; 86; 89; 64; 214; 52; 143; 153; 15; 155; 148; 79; 0; 20; 84; 91; 120; 94; 30; 158; 17; 68; 71; 32; 117; 27; 96; 128; 171; 29; 92]);
   (21518, [204; 76; 107; 25; 70; 71; 43; 12; 89; 38; 91; 64; 52; 116; 56; 106; 148; 27; 15; 143; 4; 84; 153; 79; 30; 68; 155; 140; 32; 17; 81; 145; 20; 170; 29; 171; 180; 159; 158; 42; 160; 157]);
   (21519, [89; 25; 218; 91; 79; 155; 30; 96]);
   (21520, [244; 30; 116; 52; 153; 143; 25; 79; 120; 89; 27; 32; 155; 91; 148; 33; 29; 15; 158; 159; 20; 157]);
   (21521, [226; 89; 116; 52; 71; 27; 7; 153; 25; 155; 68; 76; 34; 148; 64; 143; 81; 79; 132; 120; 30; 96; 156; 93; 4; 28; 91; 29; 32; 43; 160; 84; 56; 159; 15]);
   (21522, [93; 205; 91]);
   (21523, [244; 52; 116; 91; 120; 0; 153; 155; 143]);
   (21525, [27; 219; 155; 91; 30; 25; 157; 29; 89; 158; 93; 96; 143; 79]);
   (21526, [251; 25; 91]);
   (21527, [252; 116; 25; 153]);
   (21531, [217; 25; 91; 32; 89; 155; 30; 20; 143; 244; 116; 93; 153; 94; 158; 84; 29; 159; 96; 128; 160; 52; 218; 156; 15; 79; 27; 148; 102; 180]);
   (21533, [0; 52; 116; 64; 246; 25; 143; 91]);
   (21534, [52; 244; 143; 25; 116; 15; 56; 190; 126; 20; 153; 158; 30; 64; 89; 79]);
   (21535, [116; 244; 52; 190; 126; 91; 155; 79; 89; 92; 15; 143; 56; 96]);
   (21536, [246; 89; 25; 116; 79; 143; 148]);
   (21537, [25; 160; 32; 153]);
   (21539, [244; 91]);
   (21542, [116; 6; 52; 246; 252; 109; 180; 79; 25; 148; 143; 15; 91; 153; 89]);
   (21543, [252; 89; 33; 52; 25; 97; 91; 153; 84; 96]);
   (21544, [86; 227; 214; 153; 4; 25; 132; 99; 150; 89; 35; 17]);
   (21545, [52; 56; 89; 153; 25]);
   (21547, [244; 25; 116; 52; 0; 27; 15; 56; 91; 155; 190; 62; 89; 32; 153; 20; 128; 143; 148; 30; 29]);
   (21548, [244; 52; 116; 25; 64; 143; 91; 0; 89; 79; 15; 153; 27; 120; 155; 148; 56; 20; 180; 4; 32]);
   (21549, [52; 244; 84; 33; 143; 116; 91]);
   (21550, [244; 116; 52; 91]);
   (21551, [52; 244; 116; 155; 56; 91; 107; 25; 30; 20; 143; 148; 32; 4; 29; 156; 132]);
   (21553, [225; 52; 97; 33; 161; 25; 153; 91]);
   (21554, [25; 251]);
   (21556, [27; 219; 94; 30; 91; 25; 155; 28; 159; 160; 17; 15; 157; 31; 96; 29]);
   (21557, [244; 52; 116; 180; 120; 148; 91; 56; 25; 153]);
   (21560, [52; 244; 116; 25; 153; 148; 56; 84; 120; 32; 20; 89; 68; 4; 96; 143; 155; 132]);
   (21561, [244; 52; 116; 143; 25; 56; 15; 148; 153; 91; 155; 20; 79; 32]);
   (21563, [244; 89; 52; 116; 25; 153; 91]);
   (21564, [244; 52; 116; 25; 91; 153; 79; 89; 56]);
   (21566, [230; 160; 91; 158; 116; 155; 180; 38; 94; 159; 143; 92; 29; 148; 20]);
   (21568, [252; 74; 97; 161; 188; 124; 91; 153; 89; 155; 143]);
   (21571, [252; 52]);
   (21574, [244; 25; 190; 79; 116; 62; 0; 126; 153; 52; 91; 15; 17; 155; 143; 89]);
   (21576, [244; 52; 116; 155; 91; 89; 25; 79; 84; 143; 27; 30]);
   (21578, [89; 52; 116; 244; 153; 25; 20; 143; 148; 91; 120; 84; 160; 79; 15; 30; 171; 81; 155; 56]);
   (21579, [25; 153; 32; 160]);
   (21584, [52; 252; 89; 25; 56; 143; 20; 153; 91; 155]);
   (21587, [89; 25]);
   (21588, [202; 205]);
   (21589, [52; 252; 56; 15; 116; 79]);
   (21590, [97; 33]);
   (21591, [252; 97]);
   (21592, [89; 153; 159; 25; 227; 116; 86; 155; 84; 217; 91; 143; 120; 145; 148; 81; 27; 214; 79; 30; 132; 158]);
   (21593, [219]);
   (21595, [244; 116; 0; 52]);
   (21596, [225; 52; 20; 148; 10; 143; 91; 155]);
   (21602, [252; 25; 89; 124; 52; 32; 91; 56]);
   (21604, [89; 251; 96; 153; 91]);
   (21606, [202]);
   (21608, [107; 43; 25; 27; 219; 153; 12; 86; 76; 214; 91; 52; 89; 22; 0; 102; 30; 56; 32; 155; 150; 143; 28; 35; 94; 92; 148; 15; 29; 20; 227; 64; 140; 1; 93; 158; 81; 128; 116; 3; 79]);
   (21617, [33; 97; 190; 62; 52; 116; 15; 143; 161; 126]);
   (21618, [244]);
   (21619, [89; 180; 25; 218; 116; 71; 153; 79; 86; 64; 143; 96; 84; 91; 160; 159; 155; 148; 68; 32; 214; 15; 0; 158; 120; 128]);
   (21621, [244; 252; 52; 56; 190; 126; 143; 25; 91; 180; 30; 155; 64]);
   (21622, [205]);
   (21623, [244; 91]);
   (21624, [202]);
   (21627, [52; 143]);
   (21628, [52; 116; 244; 25; 27; 30; 89; 143; 148; 190; 15; 153; 33; 126; 56; 20; 79; 74; 17; 91; 62; 32; 161; 155; 180; 120; 29; 84; 158; 31]);
   (21629, [120; 89; 217; 25; 116; 52; 153; 96; 79; 159; 71; 160; 91; 84; 148; 143; 158; 64; 155; 68; 0; 180; 20; 126; 184; 4; 244; 56; 43; 15]);
   (21632, [52; 94; 143]);
   (21634, [244; 52; 153; 25]);
   (21636, [15; 143; 52]);
   (21638, [52; 20; 25]);
   (21643, [230; 38; 52; 190; 62]);
   (21644, [198; 25; 32; 158; 27; 116; 64; 153; 89; 0; 96; 155; 52; 30; 94; 91; 56; 160; 92; 159; 15; 120; 93; 20; 81; 79; 29; 143; 43; 190; 148; 62; 84; 126; 4; 156; 132; 31; 1; 68]);
   (21646, [116; 218; 79; 148; 15; 84; 143; 91]);
   (21647, [52; 89; 25; 116; 92; 153; 156]);
   (21648, [116; 120; 251; 84]);
   (21650, [244; 116; 25; 52; 89; 143; 56]);
   (21652, [225; 33; 25]);
   (21653, [33; 225; 52; 116; 97; 190; 161; 126; 84; 148]);
   (21654, [25; 32]);
   (21657, [89; 251]);
   (21658, [97; 225; 33; 161; 126; 155; 91]);
   (21659, [116; 251; 148; 84]);
   (21661, [225; 25; 153; 91]);
   (21667, [225; 33; 91]);
   (21668, [143; 116; 251]);
   (21670, [202; 155]);
   (21671, [244; 190; 126; 52; 143; 25; 153; 155]);
   (21672, [56; 25; 17; 159; 81; 43; 160; 32]);
   (21673, [225]);
   (21674, [25; 89; 32; 97; 33; 160; 153; 91; 155]);
   (21675, [143; 25; 15; 20]);
   (21676, [244; 52; 15; 25; 116; 180; 20; 143; 91; 56; 155; 153; 148; 89]);
   (21677, [225]);
   (21679, [33; 244; 97; 52; 89; 161; 96; 153; 252; 91; 155]);
   (21681, [38; 230]);
   (21683, [52; 244; 120; 116; 32; 89; 25; 153; 202; 15; 160]);
   (21684, [251; 33; 161]);
   (21688, [30; 192; 25; 27; 91; 219; 155; 32; 158; 148; 116; 218]);
   (21691, [205; 126; 190]);
   (21693, [244; 116; 25; 52; 84; 148; 79; 89; 153; 91]);
   (21695, [33; 161; 15]);
   (21696, [52; 246; 0; 25; 64; 67; 3; 116; 155; 91; 143; 30; 15; 32; 56; 62; 148; 194]);
   (21697, [89; 25; 153; 244; 86; 52; 148; 159; 84; 81; 68; 116; 91; 180; 155; 96; 214; 158; 160; 56; 143; 15; 35; 102; 132; 145; 27; 29; 79; 4]);
   (21698, [246; 52]);
   (21700, [244; 52; 190; 126; 116; 56; 143; 15; 25; 91; 155; 120; 89]);
   (21702, [52; 180; 62; 190]);
   (21703, [252; 33; 94; 97; 158; 153; 93; 20; 10]);
   (21704, [158; 209; 30; 27; 29; 97; 33; 155; 148; 20; 31; 32; 25; 153; 93; 91; 94; 157; 159; 161; 160; 96; 190; 126; 17; 74; 180; 89; 62; 10; 116; 52; 79; 28])].
Definition pos_chars_3 : list (char * list N) :=
  [(21705, [252; 91; 64; 84; 79; 143; 109; 155; 148]);
   (21708, [25; 153; 160; 89; 32]);
   (21709, [120; 244; 52; 89; 153; 116; 25; 86; 0; 84; 79; 91; 62; 30; 15; 214; 155; 192; 64]);
   (21710, [202; 10; 60]);
   (21711, [116]);
   (21712, [225; 33]);
   (21713, [25; 244; 64; 15; 153; 79; 89; 116; 62; 81; 20; 4; 180; 148; 32]);
   (21714, [225; 97; 251; 116; 25; 161]);
   (21716, [25]);
   (21717, [205]);
   (21719, [246; 33; 116; 52; 62; 161; 15; 190; 143; 225; 91; 155]);
   (21721, [91; 205]);
   (21722, [89; 91]);
   (21724, [205]);
   (21725, [116; 251]);
   (21726, [225]);
   (21727, [252; 74; 91]);
   (21733, [89; 25; 217; 30; 94; 91; 158; 155; 159; 153; 31; 27; 32; 4; 96; 157; 29; 143; 209; 160]);
   (21734, [202; 116; 225]);
   (21735, [97; 225; 161; 33]);
   (21736, [218; 25; 89; 227; 116; 91; 97; 64; 126; 153; 190; 93]);
   (21737, [252; 227; 91; 89; 190; 160; 62; 148]);
   (21738, [38; 230; 6; 24; 29; 20; 155; 91]);
   (21741, [244; 116; 52; 25; 143; 15; 20; 190; 62; 79; 84; 120; 148; 91; 56; 32; 155]);
   (21742, [116; 25; 148; 153]);
   (21746, [25; 219; 155; 91; 30; 29; 89; 160; 218; 159; 81; 143; 156; 17; 64; 92]);
   (21747, [251]);
   (21754, [25; 52; 246; 20; 79; 116; 56; 155]);
   (21756, [244; 52; 116; 190; 126; 25; 62; 33; 143]);
   (21757, [52; 244]);
   (21759, [205; 155]);
   (21761, [116; 25; 120]);
   (21766, [116; 52; 153]);
   (21767, [89; 218; 25; 91; 32; 153; 143; 15; 155; 20; 148; 180; 17]);
   (21769, [202; 15; 52]);
   (21775, [52]);
   (21776, [27; 43; 219; 107; 209; 30; 91; 236; 96; 25; 64; 155; 160; 81; 29; 153; 158; 52; 157; 28; 223; 32; 31; 94; 93; 159; 92]);
   (21777, [89; 251; 96; 153; 160]);
   (21780, [252; 97]);
   (21787, [205]);
   (21792, [52; 244; 190; 62; 56; 116]);
   (21794, [25]);
   (21795, [64; 251]);
   (21796, [246; 116; 91; 52; 143; 120; 79; 155; 153; 148]);
   (21799, [33; 97; 116; 244; 25; 161; 126; 190; 52]);
   (21802, [205; 91]);
   (21804, [244; 116; 52]);
   (21806, [120; 116; 244; 153; 25; 52; 20; 56; 145; 148; 81; 84; 32; 160]);
   (21807, [4; 25; 199; 52; 153; 91; 7; 20; 0; 155; 148; 15; 143; 32; 30]);
   (21809, [244; 116; 52; 25; 153; 89; 120; 143; 20; 91; 148; 84; 159; 56; 15; 81; 160; 155; 180]);
   (21811, [79; 205]);
   (21815, [251; 91; 97]);
   (21820, [251]);
   (21822, [25; 244; 52; 15]);
   (21823, [251; 25]);
   (21825, [251; 33]);
   (21827, [244; 148; 20; 143; 52]);
   (21828, [244; 25; 52; 79; 97]);
   (21830, [25; 89; 52; 217; 116; 159; 31; 30; 153; 27; 120; 145; 43; 20; 91; 160; 17; 56; 81; 155; 148; 96; 158; 132; 107; 143; 171; 32; 4; 95; 84]);
   (21833, [89; 251; 91]);
   (21834, [252; 10; 91; 25; 155]);
   (21840, [244]);
   (21845, [71; 148; 116; 205]);
   (21846, [246; 91]);
   (21852, [246; 52; 25]);
   (21857, [89; 153; 251; 160; 91]);
   (21860, [25; 81; 159; 153; 89; 32]);
   (21861, [230; 102; 38; 25]);
   (21862, [252; 97; 161; 126; 91; 153; 160; 190; 25; 96; 89]);
   (21863, [97; 33; 225; 20; 148; 15; 143; 25; 153; 202]);
   (21866, [225; 97; 161; 33]);
   (21868, [64; 194; 153; 205; 155]);
   (21869, [205; 116]);
   (21870, [25; 246; 4; 52; 116]);
   (21877, [252]);
   (21878, [89; 251; 153; 96; 160]);
   (21879, [251; 97]);
   (21880, [89; 116; 244; 91; 155; 25; 84; 20; 52; 79; 92; 27]);
   (21883, [205; 116; 71; 155]);
   (21884, [52; 244; 190; 126; 89; 25; 15; 56; 91; 148; 143]);
   (21886, [251; 97]);
   (21888, [30; 209; 158; 155; 32; 91; 33; 89; 225; 25; 157; 160; 31; 29]);
   (21889, [205]);
   (21890, [244; 52; 56; 116; 91]);
   (21891, [97; 33; 89; 15; 143; 153; 116; 160; 91; 155; 120]);
   (21892, [116; 244; 52; 64; 25; 0; 91; 65; 155; 143; 94; 15; 201; 148; 158; 79; 89; 153; 194; 84; 30; 20; 180; 68; 93; 159]);
   (21895, [25; 219; 158; 91; 153; 155; 89; 97; 161; 148; 30]);
   (21896, [91; 251]);
   (21897, [25; 218; 89; 153; 116; 32; 79; 160; 84]);
   (21898, [244; 116; 52; 25; 143; 153; 91; 120; 56; 79; 148; 15; 155]);
   (21899, [15; 143; 52; 153]);
   (21903, [202; 116; 251; 91]);
   (21905, [52; 79]);
   (21908, [225; 202]);
   (21912, [244; 52; 89; 143; 153; 116; 79; 62; 56; 96; 190; 126; 180; 25]);
   (21913, [218; 79]);
   (21916, [52; 244; 25; 116; 89; 64; 91; 0; 15; 30; 155; 143; 79; 62; 84; 148; 153; 158; 71; 120; 20; 94; 190; 126; 32; 180; 29; 56; 92; 96; 93; 160; 3]);
   (21917, [246; 52; 116; 56; 84; 91; 148; 143; 153; 64; 20; 30; 25; 89; 79; 120]);
   (21919, [205; 52; 120]);
   (21927, [52; 246; 56; 143; 25; 15; 116; 0; 91; 155; 194]);
   (21937, [251; 160; 89; 153]);
   (21939, [97; 161; 225; 33]);
   (21941, [225]);
   (21943, [52; 244; 25; 116; 4; 56; 180; 190; 126; 32; 96; 143; 62; 153; 15; 155; 68; 91; 20; 0; 148; 89; 132; 30]);
   (21945, [25; 89; 32]);
   (21947, [79; 89; 27; 116; 219; 143; 52; 91; 246; 218; 120; 148; 155; 30]);
   (21949, [25; 252; 237; 155]);
   (21950, [205; 93; 91]);
   (21956, [202; 205]);
   (21957, [244; 25; 52]);
   (21961, [25]);
   (21964, [205]);
   (21965, [244]);
   (21969, [244; 116]);
   (21970, [225; 97]);
   (21971, [25; 227; 218; 153; 160; 89; 180]);
   (21972, [52; 116; 143]);
   (21974, [225; 97; 33; 190; 126]);
   (21980, [246; 25; 52; 15]);
   (21981, [116; 89; 25; 180]);
   (21983, [52; 15; 116; 143]);
   (21985, [97; 33; 225]);
   (21987, [155; 218; 91; 43; 89; 116; 156; 25]);
   (21988, [246; 15; 97; 52]);
   (21989, [205; 89; 52; 155]);
   (21990, [116; 251; 64; 126]);
   (21992, [202; 10]);
   (21994, [89; 205; 153; 96]);
   (21995, [52; 62; 190]);
   (21996, [202; 10; 91]);
   (21999, [202]);
   (22002, [148; 20]);
   (22003, [202; 25]);
   (22005, [225]);
   (22007, [97; 33; 52; 15; 180; 143]);
   (22013, [116; 153]);
   (22014, [205]);
   (22016, [52; 148; 190; 62; 33]);
   (22017, [161; 33]);
   (22024, [0; 62; 190]);
   (22025, [209; 155; 27; 30; 91; 43; 32; 25; 158; 94; 96; 52; 81; 64; 56; 29; 160; 159; 31; 93; 153]);
   (22028, [205; 25; 153; 160]);
   (22030, [225; 33; 155; 97; 158; 91; 161; 94; 32; 92; 29; 96; 30; 27; 62]);
   (22031, [205; 91]);
   (22040, [116; 244; 25; 153; 89; 15; 190; 126; 84; 202; 52; 148; 120]);
   (22043, [252; 89; 153; 94; 158]);
   (22046, [252]);
   (22047, [52; 97; 225; 33; 190; 62; 35; 161; 126; 91; 155]);
   (22051, [225; 190]);
   (22052, [225; 91]);
   (22055, [25; 251; 153; 91]);
   (22060, [244]);
   (22061, [225]);
   (22065, [52; 116; 89; 246; 56; 148; 153; 79]);
   (22066, [52; 116; 246; 56; 143; 84; 120; 25; 79]);
   (22068, [217; 25; 42; 116; 89; 94; 91; 143; 153; 0; 158; 84; 79; 52; 96; 148; 155; 71; 64; 20; 15; 180]);
   (22070, [246; 0; 52; 143; 89; 79; 155; 225]);
   (22073, [0]);
   (22075, [225; 190; 126; 52; 62; 202; 91; 15; 155; 74]);
   (22079, [97; 33; 202]);
   (22092, [225; 251]);
   (22093, [246]);
   (22094, [244; 52; 116; 143; 25]);
   (22100, [225; 97]);
   (22103, [225; 33]);
   (22104, [244; 52]);
   (22105, [244; 91]);
   (22108, [97; 89; 116; 161; 99; 0; 126; 84]);
   (22114, [252; 202]);
   (22116, [89; 15; 25; 84]);
   (22120, [89; 25; 217; 153; 96; 84; 91; 171; 148; 52; 95; 159; 116; 211; 64; 79; 155; 4; 180; 56; 15; 92; 68; 81; 143; 20; 160; 132; 158]);
   (22121, [25; 190; 126; 64; 79; 143]);
   (22122, [25; 116; 218; 64; 148; 160; 79; 246; 120; 89; 0; 153]);
   (22123, [202; 10]);
   (22124, [116; 246; 25; 148; 15; 79]);
   (22129, [25]);
   (22134, [158; 251; 29; 30; 153; 25; 91; 160; 32]);
   (22139, [25; 84; 89; 153]);
   (22140, [33; 161]);
   (22149, [116; 251; 126; 190]);
   (22150, [251]);
   (22158, [244; 52; 7; 116; 79; 89; 25; 91]);
   (22159, [89; 116; 25; 97]);
   (22163, [97; 225; 161]);
   (22179, [116; 0; 120; 246; 143; 20; 91; 89; 153; 64]);
   (22191, [202]);
   (22199, [244; 116; 52; 180; 190; 126; 120]);
   (22204, [244; 116; 143; 25; 148; 52; 153]);
   (22218, [89; 218; 25; 52; 42; 153; 64; 91; 143; 79; 190; 126; 15; 116; 20; 96; 29; 158; 30]);
   (22228, [116; 126; 190; 52]);
   (22234, [25; 246; 52; 89; 116; 153; 56]);
   (22235, [22; 214; 150; 30; 86; 24; 25; 17; 12; 155; 107; 7; 43; 153; 15; 171; 52; 29; 160; 31; 89; 32; 91; 143; 148; 4; 79; 20; 94; 158; 102; 159; 93; 96; 145; 81; 132; 27; 84]);
   (22238, [52; 244; 116; 25; 86; 56; 88; 32; 120; 148; 30; 143; 158; 153; 15; 91; 107; 214; 79; 155; 190; 126; 84; 20; 89; 94; 68; 28; 132; 159]);
   (22239, [25]);
   (22240, [6; 226; 89; 25; 134; 15; 155; 91; 93; 52; 180; 7; 143; 153; 79; 157; 148; 158; 96; 116; 20; 94; 29; 30; 34; 56; 32; 160; 92]);
   (22241, [89]);
   (22242, [89; 25; 217; 95; 153; 0; 86; 52; 116; 159; 214; 71; 7; 160; 102; 143; 96; 148; 91; 30; 79; 64; 84; 81; 15; 17; 180; 4; 155; 20; 31; 145; 132; 35; 62; 190; 56; 43; 184]);
   (22244, [244; 52; 15; 89]);
   (22251, [7; 15]);
   (22253, [89; 25; 218; 94; 91; 158; 42; 153; 155; 81; 116; 227; 96; 93; 143; 160; 120; 102; 52; 184; 56; 95; 32; 4; 145]);
   (22256, [3; 25; 64; 244; 0; 52; 116; 153; 143; 68; 79; 20; 120; 180; 15; 148; 81; 184; 155]);
   (22257, [89; 251]);
   (22260, [89; 76; 52; 244; 116; 25; 153; 91; 56; 148; 84; 15; 155; 20; 143; 94; 68; 158; 159; 30; 32; 96]);
   (22261, [71; 143; 251]);
   (22265, [143; 25]);
   (22266, [0; 116; 25; 209; 64; 20; 52; 6; 153; 4; 246; 91; 30; 120; 79; 155; 148; 15; 94; 160; 32; 81; 93; 96; 65; 158; 29; 56; 89; 180; 143; 31]);
   (22269, [94; 25; 89; 217; 159; 42; 153; 102; 31; 155; 116; 148; 56; 17; 32; 91; 160; 4; 95; 27; 64; 158; 43; 68; 52; 120; 107; 20; 93; 143; 96; 15; 79; 92; 30; 132; 145; 84; 29; 156; 106; 81; 180; 184; 157]);
   (22270, [217; 25; 89; 116; 91; 29; 155; 153; 30; 94; 96; 120; 143; 52; 93; 158; 79; 159; 148; 160; 27; 157; 84; 81; 20; 15; 92; 56; 32; 35]);
   (22271, [246; 89; 52]);
   (22275, [218; 89; 91; 155; 30; 153]);
   (22276, [79; 89; 251]);
   (22278, [25; 246; 89; 217; 153; 0; 91; 155; 116; 30; 126; 20; 62; 190; 52; 64; 244; 148; 143; 43; 4; 192; 79; 27; 96; 84; 32; 17; 92; 156; 171; 180]);
   (22280, [89; 86; 25; 227; 244; 52; 217; 153; 96; 180; 30; 56; 148; 214; 35; 116; 155; 91; 94; 32; 84]);
   (22281, [205; 155]);
   (22282, [205]);
   (22300, [251; 25; 91]);
   (22303, [25; 89; 217; 116; 30; 153; 158; 143; 32; 20; 148; 91; 159; 79; 155; 52; 15; 96; 120; 29; 180; 160; 0; 27; 81; 31; 190; 62; 4; 84; 93; 94; 56; 43; 17]);
   (22307, [25; 209; 30; 94; 91; 155; 64; 43; 29; 32; 116; 0; 89; 96; 27; 148; 159; 158; 153; 95; 143; 180; 79; 31; 171; 92; 157]);
   (22312, [226; 116; 107; 52; 71; 45; 89; 143; 68; 153; 56; 148; 4; 155; 180; 84; 190; 126; 15; 79; 38; 29; 0; 25; 91; 7; 20; 64; 160; 159; 92]);
   (22313, [25; 94; 30; 92]);
   (22314, [25; 30]);
   (22316, [205]);
   (22317, [94; 30; 209; 91; 25; 158; 155; 153; 89; 143; 29; 159; 31]);
   (22318, [205]);
   (22319, [91; 205]);
   (22320, [242; 25; 89; 42; 145; 106; 158; 102; 126; 116; 71; 153; 94; 79; 30; 52; 109; 143; 84; 96; 32; 148; 27; 160; 155; 91; 135; 93; 17; 20; 0; 29; 15; 4; 180; 81; 159; 170; 120; 31; 132; 99; 68; 134; 184; 171; 43; 56]);
   (22323, [94; 158; 159; 153]);
   (22329, [218; 89]);
   (22330, [89; 25; 86; 227; 106; 116; 153; 88; 42; 180; 94; 71; 102; 84; 148; 214; 79; 143; 12; 68; 81; 158; 150; 35; 99; 160; 155; 159; 64; 120; 95; 91; 96; 22; 145]);
   (22331, [94; 91; 205; 158; 155]);
   (22334, [89; 153; 251]);
   (22336, [89; 218; 116; 91; 94; 120; 158; 155; 153]);
   (22338, [158; 217; 89; 94; 27; 155; 93; 29; 30; 32]);
   (22343, [199; 64; 81; 0; 25; 153; 91; 52; 148; 71; 155; 180; 32; 1; 143; 30; 160; 56; 132; 94; 29]);
   (22346, [89; 218; 94; 25; 91; 96; 158; 155; 153; 30; 160; 132]);
   (22348, [205]);
   (22349, [52; 244; 116]);
   (22350, [218; 29; 0; 89; 91; 25; 30; 155; 35; 153; 93; 20; 157; 190; 62; 94]);
   (22351, [116; 192; 25; 52; 89; 153; 79; 148; 84; 145; 20; 126; 160; 190; 91; 143]);
   (22352, [244; 52; 116; 25; 15; 79; 153; 148; 89; 20; 143; 91; 56; 4; 32; 155; 120]);
   (22353, [217; 89; 25; 116; 94; 52; 20; 148; 143; 93; 84; 91; 153; 244; 158; 0]);
   (22359, [89; 86; 227; 102; 71; 106; 135; 25; 214; 116; 153; 79; 35; 160; 170; 96; 32; 148; 143]);
   (22362, [52; 0; 1; 91; 192; 15; 219; 25; 155; 89; 120; 153; 158; 53; 143; 116; 148; 79; 20; 29; 84; 159; 71; 31; 193; 35; 150; 94; 22; 218]);
   (22363, [89; 218; 227; 159; 94; 25; 91; 155; 20; 148; 158; 160; 96; 153; 143; 116; 30; 81]);
   (22364, [94; 158]);
   (22365, [89; 217; 25; 94; 91; 42; 158; 116; 153; 30; 159; 96; 93]);
   (22366, [218; 94; 89; 25; 158]);
   (22367, [217; 25; 89; 116; 143; 94; 153]);
   (22368, [244; 52; 79; 116; 25; 89; 153; 143; 96; 56]);
   (22369, [89; 217; 94; 25; 91; 116; 153; 158; 148; 159; 96; 93; 30; 92; 42; 120])].
Definition pos_chars_4 : list (char * list N) :=
  [(22372, [30; 89; 94; 158; 96; 79; 25; 92; 91; 29]);
   (22374, [25; 94; 64; 91; 0; 158; 52; 209; 155; 153; 30; 159; 93; 96; 157; 160; 29; 1; 15; 62; 190; 32; 143; 148; 17; 126; 31]);
   (22376, [244; 227; 25; 153; 94]);
   (22377, [25]);
   (22378, [244; 94; 89; 91; 158; 30; 155; 218; 93; 96; 29; 25]);
   (22379, [205]);
   (22381, [205]);
   (22383, [89; 217; 25; 153; 116; 96]);
   (22387, [205; 89]);
   (22390, [251]);
   (22391, [64; 153; 148; 190; 126; 25]);
   (22395, [94; 158; 205]);
   (22396, [205]);
   (22402, [52; 244; 25; 116; 15; 91; 153; 89; 155; 143; 62; 148; 4]);
   (22403, [25; 89]);
   (22404, [52; 218; 25; 20; 153; 89; 91; 155]);
   (22406, [205; 155]);
   (22411, [89; 211; 68; 120; 25; 116; 153; 96; 102; 180; 91; 148; 158; 81; 155; 160; 184; 159]);
   (22412, [205; 91]);
   (22418, [89; 244; 116; 91; 25; 79; 52; 155; 153; 68; 96; 158; 159; 160; 143]);
   (22419, [205; 155]);
   (22427, [89; 244; 25; 153; 227; 91; 116]);
   (22432, [64; 84; 91; 218; 79; 155]);
   (22433, [205; 30]);
   (22434, [218; 89; 143; 79; 116; 91]);
   (22435, [89; 218; 91; 94; 158; 93; 30; 79; 155; 148; 84; 143; 96]);
   (22436, [205; 155]);
   (22438, [116; 244; 56; 89; 52; 25; 120; 153; 30; 29; 91; 159; 96; 158]);
   (22439, [227; 86; 214]);
   (22441, [153; 89; 205; 171]);
   (22443, [244; 89; 25; 52; 153; 29; 116; 30; 96; 32]);
   (22445, [205; 25; 155; 91]);
   (22446, [244; 116; 52; 190; 126; 64]);
   (22452, [205]);
   (22456, [218; 89]);
   (22466, [218; 89; 155; 94; 91; 25; 158]);
   (22467, [30; 27; 94; 209; 89; 29; 155; 91; 158; 143; 159; 32; 227; 95; 157; 31; 25; 93; 160; 153; 17; 22]);
   (22475, [52; 244; 116; 120; 143; 153; 15; 56; 0; 180; 25]);
   (22478, [25; 217; 94; 89; 42; 30; 91; 116; 158; 52; 17; 153; 145; 93; 4; 155; 12; 32; 102; 157; 106; 143; 79; 159; 96; 160; 31; 20; 84; 120; 92; 15; 29; 81; 148; 156]);
   (22479, [91; 205]);
   (22482, [205; 91]);
   (22484, [158; 94; 159; 205; 155; 91; 30; 153; 160]);
   (22485, [205; 91]);
   (22488, [217]);
   (22489, [218; 89]);
   (22490, [89; 205; 91]);
   (22493, [205]);
   (22495, [89; 94; 217; 91; 153; 84; 25; 155; 184; 42; 218; 93; 180]);
   (22496, [218; 89; 94; 155; 158; 25; 102]);
   (22500, [251]);
   (22509, [205]);
   (22511, [205]);
   (22516, [205]);
   (22520, [205]);
   (22521, [52; 56; 120; 91; 25; 155; 244; 158; 148; 99; 116; 160; 84; 153; 32; 94; 29; 27]);
   (22522, [25; 0; 218; 89; 32; 7; 91; 34; 153; 158; 155; 160; 159; 27; 93; 30; 20; 116; 94; 52; 29; 148; 96; 31; 43; 157; 17; 81; 145; 180; 143; 92; 120; 209]);
   (22525, [205]);
   (22530, [89; 227; 91; 25; 94; 126; 143; 62; 116; 86; 15; 96; 155; 81; 148; 84; 153; 79; 95; 0; 64; 190; 158; 218; 71; 7; 106; 159; 29; 214; 93; 160; 92]);
   (22534, [244; 52; 89; 86; 25; 116; 227; 56; 84; 15; 91; 217; 94; 180; 158; 30; 96]);
   (22535, [89; 25]);
   (22539, [205; 91]);
   (22545, [89; 25; 84; 143; 153]);
   (22549, [52; 244; 143; 91]);
   (22553, [205]);
   (22558, [205; 89]);
   (22560, [205]);
   (22561, [94; 218; 91; 89; 25; 93; 159; 155; 158; 96; 160; 153; 32]);
   (22564, [89; 217; 25; 116; 42; 91; 155; 94; 96; 79; 93; 148; 30]);
   (22570, [116; 244; 52; 143; 91; 30; 84; 158; 79; 148; 64; 25; 155; 246; 94; 160; 20]);
   (22576, [218; 94; 91; 30; 89; 158; 32; 155; 96; 25]);
   (22581, [52; 244; 116; 86; 27; 120; 79; 81; 153; 56; 25; 158; 148; 155]);
   (22596, [205; 91]);
   (22604, [116; 244; 52; 143; 120; 190; 126; 0; 25; 56; 64; 32; 153]);
   (22605, [205; 91; 89; 94]);
   (22609, [25; 89; 52; 218; 153; 160; 116; 91; 148; 96; 32; 79; 120; 143; 155; 159; 17; 29; 81; 246]);
   (22612, [209; 89; 30; 155; 91; 27; 158; 29; 93; 25; 32; 94; 96; 160; 157; 153; 4; 132; 31; 159; 79; 95; 148]);
   (22616, [89; 209; 94; 158; 30; 155; 25; 91; 218; 93; 42; 160; 29]);
   (22622, [244; 116; 158; 89; 30; 155; 27; 91; 29; 42; 153; 25; 52; 120; 94; 93; 157; 160; 143; 64; 32; 159; 20; 17; 15; 31; 180; 81; 79; 74; 96]);
   (22629, [205]);
   (22635, [52; 244; 116; 25; 143; 91; 32; 4; 155; 153; 56; 79; 15; 20]);
   (22636, [218; 91; 94; 155]);
   (22654, [89; 25]);
   (22656, [91; 89; 205]);
   (22657, [244]);
   (22659, [89; 42; 218; 25; 106; 120; 116; 84; 153; 91; 81; 79; 159; 143; 155; 180; 171; 12; 96; 17]);
   (22661, [89; 251; 153; 158; 91; 132]);
   (22665, [91; 155; 205; 92]);
   (22674, [218; 116; 25; 91]);
   (22675, [217; 25; 89; 116; 153; 81; 120; 79; 94]);
   (22681, [89; 217; 25; 42; 116; 143; 91; 79; 153; 96; 15; 148; 84; 4; 32; 81; 94; 30]);
   (22682, [205]);
   (22686, [52; 25; 244; 116; 155; 91; 56; 143; 79; 153; 32; 30; 148; 94; 4; 145; 93; 20; 84; 120; 132]);
   (22687, [89; 218; 155; 30]);
   (22696, [25; 30; 89; 217; 27; 116; 155; 91; 153; 29; 94; 148; 143; 158; 4; 62; 15; 79; 68; 31]);
   (22697, [244; 89; 25; 91; 190; 227; 155; 126; 94; 218; 93; 153]);
   (22716, [251]);
   (22721, [89; 25; 218; 106; 91; 42; 94; 79; 143; 227; 153; 116; 155; 86; 158; 96; 52; 132; 20; 4; 84; 148; 30; 32; 160; 15]);
   (22725, [205; 52]);
   (22737, [218; 89; 91; 153; 79; 155; 143; 116; 84]);
   (22741, [89; 25; 94; 160]);
   (22756, [89; 116; 94; 25; 153; 143; 79; 158; 160; 30]);
   (22763, [89; 25; 155; 218; 94; 91; 158; 27; 160; 153; 157; 86; 79; 159; 96; 116; 143; 84; 92; 20; 32; 93; 4; 29; 148; 30; 163; 15; 156]);
   (22764, [22; 25; 30]);
   (22766, [244; 64; 0; 52; 25; 158; 79; 155; 32; 91; 116; 143; 148; 153; 43; 1; 15; 20; 68; 84; 81; 65; 89; 180]);
   (22768, [25; 89; 86; 227; 71; 116; 143; 65; 52; 91; 148; 153; 79; 15; 68; 84; 155; 150; 20; 158; 96; 35; 99; 17; 92; 120; 159; 190; 126; 160; 56; 93; 214; 32]);
   (22771, [89; 217; 153; 25; 148; 32; 91; 96; 116; 79; 218; 31; 81; 159]);
   (22774, [89; 227; 218; 30; 91; 25; 116; 143; 158]);
   (22777, [214; 22; 91; 86; 155; 150]);
   (22788, [52; 217; 89; 106; 71; 86; 116; 25; 102; 56; 7; 214; 84; 79; 148; 153; 155; 180; 143; 95; 96; 4; 184; 15; 20; 120; 150; 68; 145; 91; 190; 126; 132; 43; 35; 94; 99; 160; 159; 17]);
   (22791, [116; 89; 120; 244; 153; 52; 64; 91; 25; 68; 56; 92; 159; 155; 84; 79; 143; 148; 62; 32; 96; 160; 7; 4; 15; 171]);
   (22797, [52; 116; 0; 71; 199; 25; 198; 155; 56; 148; 91; 143; 120; 196; 153; 201; 4; 219; 31; 32; 117; 79; 89; 159; 20; 84; 64; 93; 43; 171; 132; 30; 160; 17; 180; 92; 246]);
   (22799, [43; 27; 236; 89; 94; 91; 25; 107; 30; 158; 155; 159; 32; 160; 148; 92; 153; 116; 17; 157; 93; 120; 52; 96; 29; 31; 28; 20]);
   (22804, [219; 91; 30; 25]);
   (22805, [76; 25; 236; 107; 79; 89; 143; 158; 91; 159; 20; 171; 155; 84; 153; 30; 32; 15]);
   (22806, [25; 204; 70; 106; 76; 12; 120; 64; 116; 52; 71; 148; 153; 89; 4; 81; 84; 68; 159; 79; 31; 42; 143; 30; 91; 56; 17; 94; 145; 180; 32; 109; 155; 20; 160; 107; 0; 96; 15; 29; 93; 135; 190]);
   (22809, [25; 15]);
   (22810, [214; 22; 86; 150; 38; 7; 25; 71; 84; 116; 52; 4; 29; 0; 158; 143; 30; 64; 148; 20; 155; 56; 94; 157; 27; 32; 135; 93; 62; 89; 171; 15; 91; 153; 79; 160; 24; 102; 92; 96; 126; 159; 190; 81; 68; 17; 3]);
   (22812, [43; 107; 236; 89; 86; 25; 71; 116; 68; 52; 143; 79; 148; 84; 20; 15; 153; 91; 171; 27; 214; 4; 96; 155; 30; 29; 17; 56; 32]);
   (22815, [116; 244; 64; 52; 0; 20; 155; 148; 91]);
   (22820, [205; 43; 91; 52]);
   (22821, [205]);
   (22823, [25; 192; 64; 7; 22; 116; 38; 81; 30; 4; 159; 155; 158; 52; 32; 160; 68; 153; 15; 71; 143; 94; 27; 150; 148; 20; 1; 96; 89; 62; 17; 190; 56; 29; 91; 0; 31; 79; 43; 180; 95; 171; 132; 84; 120; 92; 42; 35; 145; 156; 157; 93; 12; 144; 126; 128; 184; 28; 135]);
   (22825, [25; 107; 86; 227; 102; 30; 89; 155; 214; 32; 4; 143; 153; 27; 35; 99; 15; 116; 42; 52; 91; 71; 148; 20; 79; 96; 29; 126; 160; 43; 94; 0; 132; 31; 158; 159; 17; 84; 180; 150; 135; 156; 7; 10; 12; 92; 28; 95; 120; 22]);
   (22826, [25; 199; 30; 155; 89; 153; 27; 91; 17; 29; 32; 0; 96; 160; 158; 42; 145; 159; 20; 157; 143; 180; 94; 92; 31; 15; 7; 81; 62; 190; 148; 52]);
   (22827, [89; 25; 91; 155; 217; 93; 94; 160; 153; 157; 30; 116; 218; 143; 158; 96; 29; 148; 159; 79; 84; 15; 92; 20]);
   (22829, [52; 246; 218; 79; 143; 91; 155; 0]);
   (22830, [89; 17; 159; 246; 95; 153; 158; 52; 91; 155; 31; 93; 145; 132; 84; 94]);
   (22831, [217; 52; 91; 25; 244; 120; 153]);
   (22833, [52; 116; 89; 244; 25; 56; 0; 143; 120; 79; 148; 180; 15; 153; 64; 84; 126; 190; 155; 93; 20; 32]);
   (22836, [89; 217; 116; 25; 86; 76; 106; 42; 153; 143; 148; 94; 0; 71; 68; 52; 15; 84; 91; 158; 4; 79; 135; 64; 120; 96; 12; 20; 155; 32; 43; 214; 180; 159; 150; 160; 7; 190; 93; 30; 171; 128]);
   (22839, [218; 91; 158; 94; 89; 116; 155; 143; 96; 30; 79; 52; 20; 25; 159; 194]);
   (22840, [52; 29; 244; 25; 116; 15; 143; 91; 155; 30; 153; 32; 84; 35; 56; 20]);
   (22841, [244; 52; 25; 89; 4; 148; 143; 30; 20; 153; 91; 56; 15; 32; 68; 96]);
   (22842, [116; 52; 244; 153; 143; 15; 79; 91; 148; 155; 120; 84; 135; 132; 56; 17; 30]);
   (22844, [205]);
   (22849, [205; 89]);
   (22850, [205; 91; 79; 155]);
   (22852, [143; 15; 79; 126; 62; 20; 148]);
   (22855, [52; 91; 64; 25; 194; 0; 89; 155; 93; 32; 15; 79; 4; 143; 153; 192; 219; 94; 96; 30; 160; 148; 84; 157; 29; 116; 132; 158; 62; 120; 56; 92; 193]);
   (22856, [71; 246; 143; 52; 155; 91; 135; 89; 159; 70; 64; 30; 79; 158; 29; 148; 94; 32; 25; 84; 116; 93]);
   (22857, [244; 52; 116; 30; 91; 155; 25; 143; 29; 148; 56; 89; 15; 153; 20]);
   (22859, [116; 52; 7; 64; 143; 153; 246; 15; 20; 84; 92; 148; 65; 91; 89; 155; 79; 32; 160; 25; 56; 120]);
   (22862, [91; 155; 219; 25; 29; 30; 157; 156; 94]);
   (22863, [244; 89; 116; 25; 153; 52; 91; 120; 68; 155; 79]);
   (22865, [25; 30; 218; 64; 91; 155; 52; 89; 27; 157; 246; 153; 116; 93; 56; 4; 32; 29; 65; 158; 94]);
   (22868, [244; 52; 116; 143; 91; 158; 62; 25; 148; 15; 93; 155; 32; 56; 31; 29; 96]);
   (22869, [79; 143; 62; 126]);
   (22870, [217; 89; 25; 96; 116; 56; 120; 52; 153; 91; 102; 160; 148; 20; 155; 81]);
   (22871, [86; 227; 25; 89; 64; 52; 214; 68; 96; 116; 153; 102; 94; 20; 84; 56; 91; 79; 32; 155; 143; 15; 4; 180; 150]);
   (22872, [91; 155; 205]);
   (22874, [219; 27; 52; 91; 155]);
   (22880, [52; 25; 246; 116; 155; 91; 120]);
   (22882, [0; 25; 194; 52; 143; 91; 56; 64; 20]);
   (22885, [209; 27; 30; 32; 25; 17; 29; 155; 91; 93; 159; 64; 157; 158; 160; 96; 31; 145; 0; 94; 153; 81; 89; 15]);
   (22899, [25; 89; 196; 153; 32; 91; 143; 84; 148; 79; 155; 27; 17; 159; 20; 4; 145; 52; 15; 158; 30; 171; 180; 68; 92; 96; 94; 160]);
   (22900, [25; 89; 218; 153; 20; 52; 91; 93; 155; 56; 158; 15; 29]);
   (22902, [25; 89; 217; 153; 116; 155; 91; 96; 148; 20; 84; 120; 30]);
   (22904, [25; 89; 192; 116; 52; 0; 79; 143; 153; 218; 148]);
   (22905, [230; 38]);
   (22909, [192; 64; 71; 116; 52; 25; 7; 0; 22; 126; 89; 124; 84; 20; 128; 143; 62; 153; 148; 15; 30; 91; 190; 32; 150; 79; 155; 10; 81; 159; 160; 120; 92; 24; 180]);
   (22913, [89]);
   (22914, [244; 6; 38; 116; 43; 52; 148; 143; 15; 70; 155; 25; 20; 7; 91; 134; 64; 102; 30; 62; 27; 128; 171; 79; 89; 84; 92; 180; 153; 0; 94; 32]);
   (22915, [89; 91; 25; 156; 153; 155; 92; 96]);
   (22916, [52; 199; 143; 64; 25; 68; 89; 15; 56; 148]);
   (22918, [116; 153; 218; 89; 143; 25; 246; 52; 155; 91; 120; 68; 148; 160]);
   (22919, [89; 25; 218; 209; 91; 153; 17; 20; 160; 15; 159; 79; 81; 143; 155; 148; 171]);
   (22920, [89; 217; 25; 91; 148; 153; 155; 30; 79; 143; 20; 29]);
   (22922, [52; 43; 56; 17]);
   (22925, [91; 219; 116; 155; 0; 64; 25]);
   (22930, [116; 52; 25; 143; 15; 153; 56]);
   (22931, [25; 89; 116]);
   (22934, [25; 0; 89; 32; 15; 153; 52; 143; 190; 62; 29]);
   (22935, [205; 155; 91]);
   (22937, [64; 192; 79; 25; 27; 143; 89; 91; 155; 15; 30; 68; 84; 0; 148; 3; 29; 153; 67; 20]);
   (22942, [25; 218; 91; 89; 153; 116; 155]);
   (22947, [79; 205]);
   (22948, [91; 89; 251; 155]);
   (22949, [192; 64; 52; 0; 1; 116; 91; 96; 190; 25; 160; 62; 153; 89; 126; 30]);
   (22952, [116; 52; 71; 102; 32]);
   (22953, [0; 15; 155]);
   (22954, [89; 205]);
   (22955, [205; 27; 91]);
   (22958, [89; 93; 25; 29; 91; 153; 155; 157; 96]);
   (22959, [25]);
   (22962, [205; 91; 155]);
   (22969, [89; 25; 217; 91; 155; 153]);
   (22971, [25; 89; 218; 153; 91; 102; 116; 143; 15; 20; 79; 148; 84; 32; 93]);
   (22974, [217; 89; 116; 79]);
   (22982, [91; 155; 251; 89; 93; 158; 94; 160; 153; 157; 29; 148; 96; 25; 159; 99; 27]);
   (22986, [25; 217; 155; 153; 91]);
   (22987, [116; 246; 7; 64; 52; 153; 25; 155; 148; 15; 143; 158; 96; 79; 120; 89; 71; 180; 94; 29; 91; 30; 157; 68; 84]);
   (22992, [89; 25; 91; 217; 155; 153; 79; 94]);
   (22993, [25; 89; 217; 153; 91; 155; 52; 7; 30; 158; 4; 15; 94; 201; 20; 148; 143]);
   (22994, [205; 91]);
   (22995, [89; 244; 25; 116; 68; 79; 92; 155; 94; 91; 153; 143; 84; 120]);
   (22996, [25; 89; 159; 52; 209; 153; 81; 95; 145; 91; 30; 0; 56; 148; 17; 7; 15; 246; 155; 143; 1; 116; 20; 218; 96; 31; 132; 160; 92]);
   (22999, [15; 143; 219; 91; 155]);
   (23000, [25; 52]);
   (23002, [27; 91; 94; 214; 219; 22; 28; 153; 155; 158; 30; 86]);
   (23004, [27; 217; 89; 155; 91; 25; 30; 28; 15]);
   (23005, [205; 91; 155]);
   (23011, [62; 25]);
   (23013, [155; 91; 25; 89; 92; 156; 158; 30]);
   (23016, [25; 155; 217; 89; 91; 153; 84]);
   (23020, [219; 27; 91; 89; 155; 84; 92; 29; 28; 93]);
   (23033, [15]);
   (23035, [89; 25; 116; 153; 143; 155; 160]);
   (23039, [25; 89; 218; 143; 64; 79; 148; 91; 84; 155; 153; 96]);
   (23041, [56; 25; 89; 91; 94; 30; 218; 29; 219; 0; 158; 155; 116; 153; 52; 32; 96; 15; 79; 148; 27; 159; 143; 120; 31; 84; 157; 160; 20; 93; 92]);
   (23043, [218; 89; 25; 91; 32; 153; 155; 93; 31; 96; 159]);
   (23044, [27; 209; 30; 219; 158; 25; 89; 91; 180]);
   (23045, [91; 251; 93; 155]);
   (23046, [64; 251; 79]);
   (23047, [0; 244; 91; 116; 25; 192; 52; 155; 62; 15; 143; 89; 79; 153; 190; 20; 64]);
   (23048, [25; 155; 205]);
   (23049, [62; 190]);
   (23052, [251; 89; 155; 91]);
   (23057, [126; 25; 30; 20; 148]);
   (23059, [20; 148; 15; 143; 7; 71; 91; 27; 155]);
   (23064, [89; 217; 25; 91; 155; 153; 116; 84; 148; 158; 157]);
   (23068, [91; 251; 93; 155; 29; 96; 126; 64; 143; 190; 158; 94]);
   (23071, [0; 92; 89; 91; 93; 156]);
   (23072, [116; 171; 120; 205]);
   (23075, [205; 91]);
   (23077, [89; 158; 148; 25; 91]);
   (23081, [116; 246; 153]);
   (23089, [56; 25; 246; 116; 89; 64; 91; 153; 155]);
   (23090, [89; 251; 148; 91; 155]);
   (23092, [0; 155]);
   (23094, [244; 116; 52; 56; 89; 79; 84]);
   (23100, [25; 116; 89; 79; 120; 84; 153]);
   (23104, [0; 15]);
   (23110, [89; 25; 91; 218; 155; 153; 143; 29; 62; 15; 30; 92; 32; 160; 116; 94; 20; 84; 79]);
   (23113, [64; 0; 155; 201; 194; 7; 52; 126; 20; 65; 91; 62; 25]);
   (23114, [25]);
   (23125, [91; 251; 155; 25]);
   (23130, [116; 25; 218; 153; 89; 43; 17; 56; 120; 20; 143; 84; 52; 79; 4; 160; 32; 246]);
   (23138, [89; 25; 143]);
   (23143, [91; 205; 155]);
   (23146, [64; 251; 91; 143]);
   (23156, [25; 218; 89; 91; 153; 116; 155; 93; 160; 17; 32]);
   (23157, [25; 89; 155]);
   (23158, [25; 89; 153; 155]);
   (23159, [91; 155; 251; 96; 79; 143; 126; 190; 93]);
   (23162, [30; 25]);
   (23167, [89; 218; 116; 79; 91]);
   (23186, [25; 89; 218; 153; 116; 84; 143; 79; 159; 52; 91]);
   (23194, [64; 246; 155; 116; 25; 91; 67; 143; 79; 0; 52]);
   (23195, [251; 91; 155; 93]);
   (23210, [205; 91; 155])].
Definition pos_chars_5 : list (char * list N) :=
  [(23218, [52]);
   (23219, [25; 89; 153; 218; 155; 91; 148]);
   (23221, [205]);
   (23224, [205; 155; 89]);
   (23230, [52; 116]);
   (23233, [244; 116; 52; 89; 25; 15; 79; 148; 153]);
   (23234, [25; 89; 218; 91; 153; 155]);
   (23241, [52; 246; 15; 116; 143; 120]);
   (23244, [244; 25; 116; 52; 89; 64; 84; 91; 15; 155]);
   (23250, [251; 89; 91]);
   (23252, [91; 205; 89; 25; 155]);
   (23254, [244; 52; 25; 148; 56]);
   (23256, [205; 25]);
   (23260, [205]);
   (23264, [205]);
   (23265, [25; 4; 52]);
   (23267, [92; 15; 4; 143; 62; 155; 20]);
   (23270, [25; 20; 155]);
   (23273, [192; 64; 25; 94; 30; 158; 4; 91; 155; 126; 62; 159; 190; 153; 81; 84]);
   (23275, [205]);
   (23281, [205; 91; 155]);
   (23305, [52; 246; 15; 20; 91; 155; 79; 25; 56]);
   (23318, [205]);
   (23319, [52; 116; 56]);
   (23346, [205]);
   (23348, [205; 27; 155; 91]);
   (23351, [25; 89; 91; 155]);
   (23360, [89; 52; 25]);
   (23376, [89; 218; 91; 25; 153; 155; 86; 27; 84; 116; 148; 96; 94; 102; 143; 158; 79; 99; 150; 160; 180; 30; 107; 159; 93; 95; 43; 20; 71; 132; 15; 29; 184; 156; 145; 64; 157; 32; 28; 92]);
   (23377, [25; 15]);
   (23379, [89]);
   (23380, [27; 89; 217; 25; 116; 91; 219; 155; 28; 68; 153; 30; 143; 79; 20; 120; 84; 93; 29; 96; 158; 4; 15; 157; 160]);
   (23381, [116; 25; 52; 209; 43; 153; 120; 218; 89; 32; 171; 17; 246; 91; 155; 160]);
   (23383, [217; 89; 25; 153; 116; 96; 148; 84; 143; 184; 120; 15; 79; 155; 180; 91; 159; 160; 132; 158; 68; 71; 32; 28; 30]);
   (23384, [52; 116; 25; 244; 89; 56; 153; 155; 120; 91; 148; 143; 84; 79; 64; 17; 7; 171; 160; 132; 92; 20; 32; 28; 15]);
   (23385, [27; 219; 91; 89; 25; 155; 28; 153; 158; 32; 94; 79; 143; 30; 148; 84; 92; 157]);
   (23386, [91; 246; 96; 29; 155; 159; 160; 148; 30; 158]);
   (23387, [205; 91]);
   (23388, [160; 158; 94; 96; 190; 126; 20; 148; 15; 143; 93; 25; 157; 171]);
   (23389, [218; 155; 91; 25; 52; 30; 116; 64; 157; 89; 29; 32; 79; 15; 148; 156; 153; 143; 27; 84; 56; 158]);
   (23391, [27; 209; 30; 155; 25; 91; 29; 32; 0; 153; 158; 157; 94; 43; 28; 159; 92; 15; 31; 93]);
   (23394, [25; 89; 96; 160; 153]);
   (23395, [25; 152; 107; 86; 89; 218; 27; 20; 155; 91; 68; 153; 84; 227; 214; 102; 148; 81; 116; 132; 32; 29; 219; 158; 157; 28; 93; 15; 56; 94; 156; 43]);
   (23396, [192; 25; 0; 52; 218; 15; 27; 62; 20; 143; 91; 116; 155; 30; 190; 4; 89; 158; 84; 148; 1; 17]);
   (23397, [205; 91]);
   (23398, [89; 25; 153; 244; 95; 52; 159; 116; 155; 84; 148; 160; 91; 120; 81; 64; 143; 93; 96; 20; 145; 180; 15; 79; 132; 4; 17; 158; 32; 30; 28; 29; 56; 92; 94; 156; 43]);
   (23401, [25; 89; 153; 160; 218; 155; 91; 180]);
   (23402, [4; 25]);
   (23404, [25]);
   (23408, [230; 20; 148; 52]);
   (23409, [0]);
   (23411, [52]);
   (23413, [52; 244; 43; 56; 25; 32]);
   (23418, [89; 25; 143; 92; 29; 155; 15]);
   (23421, [194; 89; 116; 25; 143; 32; 15]);
   (23425, [91; 94; 30; 158; 209; 27; 155; 7; 64; 0; 93; 96; 153; 28; 159; 25; 52; 81; 92; 89; 79; 15; 70; 160; 143; 32; 29; 157; 199; 145; 31; 6; 148; 116; 20]);
   (23427, [230; 38; 102; 89; 143]);
   (23428, [251; 89]);
   (23429, [89; 218; 25; 153; 91; 155; 143; 68; 93; 32; 30]);
   (23431, [25; 91; 89; 27; 155; 20; 219; 32; 96; 143; 159; 218; 160; 158; 42; 79; 29; 95; 156; 93]);
   (23432, [116; 244; 52; 89; 64; 25; 155; 120; 153; 91; 143; 0; 79; 15; 148; 20; 84; 56; 29; 158; 156; 27; 184]);
   (23433, [52; 244; 3; 94; 30; 27; 89; 91; 64; 0; 158; 96; 153; 25; 155; 116; 159; 32; 93; 79; 29; 160; 15; 143; 17; 62; 84; 190; 148; 20; 31; 43; 126; 35; 28; 56; 145; 86; 99; 95; 157; 1; 92; 81; 120; 156; 88]);
   (23435, [27; 219; 107; 43; 91; 155; 25; 227; 28; 236; 30; 68; 29; 31; 153; 158; 20]);
   (23436, [52; 1; 244; 0; 116; 25; 148; 27; 15; 155; 29; 190; 62; 143; 30; 20; 91; 32; 56]);
   (23439, [25; 155; 0; 219; 91; 32; 209; 143; 64; 158; 96; 94; 160; 126; 84; 30; 20; 148; 156; 224; 159; 29; 92; 52]);
   (23443, [219; 27; 91; 155]);
   (23445, [205; 116; 148; 84; 29; 155]);
   (23447, [25; 155; 91; 86; 227; 27; 89; 93; 96; 68; 156; 214; 143; 116; 79; 30; 32; 158; 150; 29; 31; 153; 159; 92]);
   (23448, [25; 89; 217; 116; 27; 91; 155; 30; 84; 143; 153; 158; 52; 32; 20; 180; 94; 148; 15; 132; 29; 93; 159; 160; 56; 145]);
   (23449, [89; 153; 148; 29; 91; 205; 155; 160]);
   (23450, [116; 71; 89; 64; 244; 153; 25; 52; 56; 7; 68; 120; 84; 148; 94; 155; 30; 91; 79; 158; 143; 4; 20; 67; 96; 29; 135; 132; 180; 160; 126; 159; 81; 156; 32]);
   (23451, [91; 27; 52; 94; 219; 30; 96; 199; 155; 53; 29; 160; 153; 158; 0]);
   (23452, [246; 116; 64; 89; 30; 79; 155; 0; 52; 91; 27; 158; 148; 25; 143; 32; 153; 29; 84; 93; 94; 180; 92; 96]);
   (23453, [27; 25; 217; 89; 91; 155; 32; 96; 30; 0; 153; 29; 93; 79; 143; 31; 158; 68; 116; 160; 84; 244; 94; 156; 132; 159; 15; 92; 145; 20]);
   (23454, [52; 25; 7; 71; 89; 64; 116; 65; 192; 56; 148; 153; 190; 91; 79; 126; 0; 143; 62; 15; 20; 155; 160; 84; 4; 129; 96; 159; 32; 42; 68; 43; 135; 92; 120; 1; 31]);
   (23456, [244; 52; 25; 116; 64; 120; 143; 91; 155; 79; 89; 15; 20]);
   (23457, [52; 56; 116; 244; 89; 120; 0; 25; 145; 153; 155; 15; 158; 68; 81; 159; 91; 32; 94; 17]);
   (23458, [25; 89; 218; 91; 116; 0; 153; 81; 52; 79; 155; 17; 93; 148; 62; 190; 64; 120; 84; 143; 159; 145; 96; 20; 160; 32; 158]);
   (23459, [52; 56; 25; 27; 155; 219; 91; 30; 43; 159; 79; 145; 148; 17; 160; 143; 81; 157]);
   (23460, [89; 217; 42; 25; 91; 96; 95; 155; 116; 153; 79; 143; 93; 81; 88; 159]);
   (23461, [205; 116; 89; 91]);
   (23462, [25; 219; 89; 27; 91; 155; 79; 52]);
   (23466, [25; 91; 155; 81; 153; 219; 120; 89; 160; 209; 29; 116; 31; 218; 148; 79; 156; 30; 157]);
   (23467, [25; 89; 219; 27; 42; 91; 218; 94; 116; 12; 155; 158; 29; 153; 180; 30; 93; 96; 20; 84; 157; 4; 143; 159]);
   (23472, [25; 244; 116; 27; 91; 52; 93; 153; 155; 143; 43; 158; 32]);
   (23475, [116; 52; 89; 64; 244; 153; 25; 84; 0; 120; 79; 143; 68; 160; 91; 15; 180; 81; 148; 184; 32]);
   (23476, [89; 25; 218; 116; 52; 219; 91; 155; 94; 148; 93]);
   (23477, [89; 236; 171; 91; 25; 107; 143; 52; 15; 155]);
   (23478, [89; 227; 25; 102; 86; 214; 42; 116; 155; 84; 153; 159; 17; 158; 94; 143; 92; 148; 91; 160; 71; 20; 132; 96; 15; 32; 52; 27; 79; 35; 99; 68; 0; 120; 145; 166; 4; 138; 180; 64; 29; 30; 150; 156; 93; 157]);
   (23480, [91; 205; 155; 160]);
   (23481, [89; 0; 116; 25; 244; 148; 52; 153; 91; 143; 27; 64; 120; 155; 135; 79; 126; 15; 84; 94; 30; 29; 158; 96; 190; 56; 93; 32; 145; 4; 180; 160]);
   (23485, [192; 0; 25; 116; 52; 91; 89; 155; 56; 15; 81; 62; 30; 190; 20; 79; 120; 4; 143; 148; 84; 32; 159]);
   (23486, [94; 25; 89; 217; 91; 155; 153; 27; 30; 158; 93; 116; 79; 159; 157; 31; 143; 120; 160; 29; 148; 15; 219; 84; 32; 20]);
   (23487, [25; 116; 244; 27; 89; 30; 227; 52; 91; 84; 153; 155; 79; 158; 94; 120; 143]);
   (23490, [0; 116; 64; 194; 62; 67; 79; 126; 91; 143; 52; 153; 20; 155]);
   (23492, [244; 52; 155; 25; 56; 116; 153; 15; 27; 120; 91; 30]);
   (23493, [215; 91; 156; 155; 86; 148; 43; 150; 15; 25; 107]);
   (23494, [25; 64; 1; 89; 192; 0; 52; 153; 65; 91; 30; 116; 155; 94; 62; 190; 120; 143; 93; 20; 158; 68; 79; 56; 32; 29; 27; 148; 159; 132; 31; 157; 4; 160; 15; 180; 96]);
   (23495, [89; 219; 27; 218; 93; 91; 155; 79; 143; 25]);
   (23500, [64; 89; 25; 192; 52; 0; 27; 158; 155; 91; 96; 116; 143; 30; 32; 15; 153; 84; 29; 31; 148; 93; 56; 20; 28; 94; 160; 79; 159; 156; 180; 4; 184; 92; 157]);
   (23504, [246; 143; 116; 79]);
   (23506, [25; 0; 194; 89; 192; 64; 52; 67; 68; 27; 116; 143; 219; 91; 155; 153; 43; 120; 79; 30; 107; 170; 84; 20; 148; 15; 32; 160]);
   (23507, [25; 89; 246; 52; 116; 153; 20; 15; 155; 91; 132]);
   (23517, [25; 218; 246; 89; 116; 20; 79; 143; 91; 15]);
   (23518, [64; 79; 194; 91; 205]);
   (23519, [116; 153; 89; 209; 52; 120; 68; 91; 159; 30; 25; 158; 246; 155; 143; 15; 145; 29; 84; 160; 94; 148; 93; 56; 20]);
   (23521, [25; 194; 143; 89; 15; 116; 148; 52; 153; 20; 0; 155; 68; 79; 84; 145]);
   (23524, [52]);
   (23525, [62; 126; 15; 143; 219; 64; 0; 155]);
   (23528, [218; 89; 91; 94; 25; 158; 155; 93; 96; 79; 159; 153; 160; 84]);
   (23534, [205; 94; 93]);
   (23536, [25; 79; 89; 84; 92; 155]);
   (23544, [89; 86; 227; 214; 143; 15; 25; 20; 64; 99; 148; 153; 84; 155; 116; 52; 79]);
   (23545, [226; 34; 71; 52; 25; 116; 56; 86; 98; 153; 7; 20; 148; 0; 12; 64; 214; 42; 79; 89; 134; 15; 84; 143; 132; 1; 32; 140; 150; 180; 155; 31; 120; 159; 22; 4; 160; 30; 91]);
   (23546, [218; 94; 25; 91; 89; 42; 155; 96; 102; 30; 93; 158; 29]);
   (23547, [52; 244; 116; 27; 0; 143; 148; 91; 15; 20; 155; 56; 25; 30; 79]);
   (23548, [89; 52; 25; 153; 116; 120; 244; 68; 81; 91; 56; 209; 148; 79; 155; 84; 159; 132; 160; 4]);
   (23551, [25; 89; 91; 27; 155; 219; 30; 94; 218; 64; 153; 116; 143; 79; 15; 158; 246; 96; 68; 159; 148; 56]);
   (23553, [227; 116; 25; 0; 52; 27; 86; 20; 94; 158; 89; 91; 153; 56; 132; 155; 120; 148; 43; 143; 30; 15; 214; 32; 79; 71; 17; 159; 84; 29; 68; 160]);
   (23556, [116; 25; 153; 244; 56; 52; 89; 120; 84; 96; 148; 68; 160; 91; 30; 159; 79; 155; 180; 132; 143; 170; 20; 31; 32; 29]);
   (23558, [199; 25; 89; 71; 43; 7; 153; 155; 143; 15; 79; 52; 91; 116; 84; 148; 30; 4; 29; 158]);
   (23561, [89; 91; 27; 219; 155; 30; 25]);
   (23562, [52; 227; 25; 86; 116; 0; 89; 155; 91; 153; 143; 120; 214; 79; 56; 15; 148; 20; 84; 29]);
   (23567, [25; 192; 27; 155; 89; 68; 64; 52; 145; 116; 153; 71; 4; 7; 62; 190; 1; 148; 81; 126; 143; 15; 30; 132; 32; 29; 93; 20; 84; 91; 43; 180; 22; 0; 150; 163; 156; 159; 56; 17; 79; 158; 157; 28; 95; 94; 31; 160]);
   (23569, [192; 116; 102; 71; 86; 25; 22; 155; 153; 52; 64; 0; 84; 20; 150; 79; 89; 148; 27; 7; 30; 91; 15; 17; 143; 159; 32; 29; 31; 4; 158; 145; 81; 24; 28; 93; 62; 190]);
   (23572, [91; 158; 155; 94; 157; 219; 93; 160; 27; 153; 96; 71; 89; 159; 29; 95; 6; 156; 143; 163; 79; 253; 35; 148; 15; 25; 171; 0; 116; 30; 38]);
   (23573, [30; 160; 158]);
   (23574, [192; 0; 89; 25; 52; 153; 4; 116; 64; 30; 84; 91; 155; 20; 68; 148; 15; 128; 143; 132; 56; 81; 94; 158]);
   (23576, [89; 218; 25; 143; 15; 91; 116; 153; 79; 52; 120; 155; 96; 84; 148; 160]);
   (23578, [199; 7; 89; 25; 52; 27; 155; 91; 64; 116; 6; 148; 93; 30; 143; 0; 15; 160; 29; 158; 28; 153; 180; 20; 10; 32; 79]);
   (23580, [251]);
   (23581, [52; 244; 71; 116; 56; 143; 155; 25; 91; 148; 20; 15]);
   (23588, [7; 199; 27; 155; 89; 91; 29; 30; 25; 143; 79; 32; 116; 28; 153; 148; 93; 17; 158; 157]);
   (23589, [52]);
   (23591, [219; 91; 155; 25; 30; 158; 29; 89; 79; 157; 93]);
   (23596, [64; 251; 79; 67]);
   (23601, [199; 7; 52; 71; 89; 148; 116; 6; 143; 134; 79; 25; 28; 135; 15; 153; 91; 20; 84; 155; 56; 32]);
   (23604, [0; 143; 3]);
   (23608, [25; 218; 89; 52; 116; 91; 143; 153; 15; 79; 20; 32; 160]);
   (23609, [27; 219; 91; 89; 155; 96; 30; 28]);
   (23610, [25; 86; 89; 227; 91; 79; 99; 214; 153; 143; 84; 132; 148; 116; 15; 180; 160; 158]);
   (23611, [205]);
   (23612, [91; 158; 155; 209; 30; 27; 93; 153; 94; 25; 89; 160; 29; 96; 159; 157; 32; 31; 148; 17; 84]);
   (23613, [6; 244; 7; 116; 71; 52; 143; 12; 79; 20; 15; 64; 148; 84; 91; 155; 89; 126; 68; 0]);
   (23614, [217; 25; 89; 153; 79; 227; 116; 94; 86; 52; 93; 30; 155; 12; 107; 91; 143; 180; 214; 15; 158; 84; 218; 29; 120; 32]);
   (23615, [217; 153; 25; 116; 89; 244; 52; 160; 91; 143; 17]);
   (23616, [89; 25; 217; 95; 81; 52; 102; 116; 86; 153; 91; 0; 214; 159; 17; 79; 84; 132; 15; 96; 4; 145; 143; 148; 158; 32]);
   (23617, [25; 217; 116; 89; 155; 15; 91; 148; 153; 143; 180]);
   (23618, [89; 227; 86; 25; 68; 76; 214; 132; 153; 35; 99; 148; 84; 15; 116; 150; 62; 91; 22; 71; 81; 32; 190; 126; 155; 143; 20; 96; 180; 52; 64]);
   (23621, [25; 244; 116; 155; 52; 89; 7; 27; 156; 153; 91; 20; 30; 143; 15; 93; 17; 56; 35; 94; 81; 160; 120; 79; 29; 84; 148; 158; 96; 159; 68]);
   (23624, [116; 25; 52; 27; 244; 143; 15; 79; 120; 89; 64; 155; 91; 30; 0; 153; 84]);
   (23625, [89; 132; 25; 160]);
   (23626, [86; 102; 7; 214; 81; 68; 227; 160; 116; 52; 159; 25; 89; 79; 148; 42]);
   (23627, [89; 25; 42; 217; 116; 94; 96; 32; 143; 153; 155; 158; 91; 157; 79; 159; 30]);
   (23630, [217; 116; 89; 25; 153]);
   (23631, [25; 218; 89; 52; 91; 30; 155; 32; 158; 93; 116; 143; 15; 94; 96; 148; 20]);
   (23632, [89; 205]);
   (23633, [89; 217; 153; 116; 143; 218; 96; 64; 79]);
   (23637, [120; 116; 52; 148; 153; 246; 25; 81; 95; 89; 56; 91; 159; 155; 27; 96; 79; 84; 64; 158; 218; 4; 160; 28; 190; 126; 156; 17; 32; 180]);
   (23641, [205]);
   (23646, [244; 89; 52; 116; 25; 120; 153; 68; 84; 160; 91; 158; 148; 0; 155; 159; 79; 132; 81; 56]);
   (23648, [56; 52; 25; 244; 27; 153; 91; 155; 89; 160; 79; 96; 143; 158; 93; 30]);
   (23649, [199; 7; 71; 15; 20; 148]);
   (23651, [205; 89; 84]);
   (23653, [52; 25; 91; 246; 4; 89; 218; 155; 143; 148; 84; 56; 79; 153; 15]);
   (23654, [205]);
   (23663, [244; 52; 25; 94; 91; 30; 155; 89; 158; 116; 218; 143; 56]);
   (23665, [25; 94; 217; 30; 89; 91; 158; 42; 27; 116; 153; 155; 143; 29; 160; 79; 93; 148; 120; 96; 159; 32; 15; 31; 20; 12; 84; 52; 92; 156; 157; 17; 95; 81; 170]);
   (23673, [91; 52; 246; 143; 155; 148; 7]);
   (23674, [205; 155]);
   (23679, [89; 218; 91; 94; 158; 155]);
   (23681, [214; 86; 89; 227; 25; 43; 120; 153; 116; 107; 143; 91; 148; 84; 15; 79; 180; 20; 155; 32; 99]);
   (23682, [199; 52; 7; 15; 6; 91; 155; 25; 156]);
   (23688, [205]);
   (23692, [15; 143; 62; 190]);
   (23693, [205]);
   (23696, [30; 218; 91; 155; 93; 29; 156]);
   (23697, [27; 91; 219; 155; 28; 0; 30]);
   (23700, [244; 25; 52; 158; 89; 116; 68; 30; 148; 170; 180; 94; 91]);
   (23702, [64; 143; 251]);
   (23703, [217; 25; 153; 94; 91; 116; 89; 120; 155; 158; 30; 42; 148; 93; 145; 20; 159; 84]);
   (23704, [91; 205; 30; 94]);
   (23705, [205; 155]);
   (23706, [91; 219; 30; 155; 94; 93; 89]);
   (23707, [94; 89; 217; 25; 42; 91; 153; 93; 158; 159; 155; 96; 81; 160; 92; 30; 27; 29; 143; 157]);
   (23708, [205]);
   (23714, [205; 155; 29; 91]);
   (23715, [205; 30]);
   (23721, [89; 25; 91; 219; 94; 155; 218; 158; 96; 30; 116; 153; 29; 84; 52; 15; 143; 93; 159; 156]);
   (23723, [205; 30; 91; 155; 32]);
   (23724, [25]);
   (23725, [94; 217; 89; 91; 93; 25; 153; 158; 155; 79; 42; 30; 160; 84; 96; 31; 81; 116; 218; 159]);
   (23729, [92; 30; 29; 25; 156; 94; 158]);
   (23731, [27; 91; 25; 217; 89; 30; 94; 155; 158; 31; 218; 29; 93; 96; 79; 32]);
   (23733, [205; 91]);
   (23735, [30; 205; 91; 155; 32]);
   (23736, [89; 106; 76; 217; 42; 153; 25; 116; 91; 120; 155; 143; 93; 94; 64; 158; 79; 159; 27; 84; 156; 62; 96; 92]);
   (23741, [205; 91]);
   (23743, [15; 7]);
   (23745, [205; 91; 89; 155]);
   (23748, [205; 91; 30]);
   (23755, [251; 126; 84; 79; 91]);
   (23762, [205; 158; 94; 91]);
   (23769, [116; 246; 91; 158; 94; 155]);
   (23777, [89; 94; 25; 209; 91; 160; 153; 159; 158; 30; 155; 148; 218]);
   (23780, [91; 205; 155]);
   (23781, [62; 91; 219; 155; 143; 15]);
   (23782, [89; 205; 143; 91; 155; 148]);
   (23784, [30; 126; 25; 15; 158; 93]);
   (23786, [205; 91; 158; 155; 94; 29; 93]);
   (23789, [25; 64; 194; 143; 0; 91; 79; 126; 84; 155]);
   (23792, [89; 91; 25; 219; 94; 153; 227; 86; 158; 96; 155; 32; 93; 15; 143; 81; 116; 214; 218; 160; 30; 92; 84]);
   (23803, [64; 194; 143; 91; 126; 67; 155; 0; 25; 148; 52; 153; 158; 96]);
   (23810, [205; 30]);
   (23811, [205; 158; 94; 155; 91]);
   (23814, [30; 205]);
   (23815, [29; 52; 155; 219; 116; 0; 30; 91; 15; 32; 246; 25; 148; 43; 31; 120; 143; 194]);
   (23822, [0; 94; 158; 15; 93; 155; 91]);
   (23828, [27; 219; 155; 28; 91]);
   (23830, [218; 89; 25; 91; 143; 94; 155; 42; 30; 52; 96; 153; 158]);
   (23835, [52; 64]);
   (23838, [205]);
   (23844, [205; 15]);
   (23846, [251; 25]);
   (23849, [52; 244; 143; 116; 89; 25; 153; 155; 56; 79]);
   (23853, [4; 15; 193; 190; 126; 52; 91]);
   (23854, [205; 94; 160]);
   (23860, [244; 94; 91; 155]);
   (23869, [25; 153; 89]);
   (23879, [27; 219; 32; 155; 91]);
   (23882, [205; 30; 29]);
   (23883, [205; 89; 153; 91; 155]);
   (23884, [244; 116; 52; 153; 91; 25; 32; 56]);
   (23896, [126; 91; 251; 79; 143; 155]);
   (23899, [205; 158; 155]);
   (23901, [205; 94; 91]);
   (23913, [30; 205; 91; 155; 160; 25; 92; 29]);
   (23915, [251; 89]);
   (23916, [205; 91; 158]);
   (23919, [251; 62]);
   (23924, [205]);
   (23938, [205; 89; 79; 91]);
   (23961, [62; 148; 143]);
   (23965, [205]);
   (23991, [205; 91; 158]);
   (24005, [25; 89; 218; 91]);
   (24013, [91; 219; 155; 62; 126; 190; 7; 30; 15; 27; 92]);
   (24029, [94; 89; 209; 158; 91; 30; 159; 27; 93; 155; 25; 96; 32; 17; 160; 153; 15; 84; 29; 79; 171; 71; 92; 143]);
   (24030, [94; 217; 158; 91; 89; 25; 159; 155; 102; 96; 93; 153; 160; 4; 81; 143]);
   (24033, [25; 52; 227; 56; 246; 116; 91; 20; 155; 32; 160; 145; 92; 120; 143])].
Definition pos_chars_6 : list (char * list N) :=
  [(24034, [89; 217; 27; 30; 25; 116; 91; 244; 155; 148; 153; 96; 32; 143; 158; 159; 79; 132]);
   (24037, [25; 56; 89; 120; 153; 116; 217; 17; 159; 148; 20; 81; 91; 0; 160; 32; 96; 84; 4; 145; 143; 79; 71; 30; 52; 132; 155; 158; 95; 180; 15; 3; 64; 190; 62; 92; 31; 27; 93]);
   (24038, [22; 204; 27; 25; 12; 150; 15; 42; 28; 30; 17; 155; 148; 158; 116; 94; 68; 20; 91; 4; 29; 93; 52; 143; 7; 32; 159; 0]);
   (24039, [89; 64; 27; 192; 0; 71; 52; 25; 91; 193; 143; 15; 155; 79; 153; 116; 148; 156; 29; 65; 56]);
   (24040, [0; 25; 4; 27; 194; 218; 64; 155; 32; 143; 91; 153; 56; 30; 52; 15; 29; 160; 31; 132; 20]);
   (24041, [52; 27; 30; 91; 219; 25; 92; 155]);
   (24043, [25; 219; 27; 30; 89; 218; 79; 155; 143; 158; 91; 15]);
   (24046, [25; 192; 89; 20; 116; 64; 7; 52; 143; 148; 91; 15; 153; 56; 84; 79; 120; 32; 0; 29]);
   (24047, [25; 205; 91]);
   (24049, [102; 230; 25; 79; 89; 143; 91; 153; 160; 84; 116; 22; 148; 38; 155; 15; 32]);
   (24050, [199; 7; 52; 71; 124; 116; 29; 64; 148; 79; 84; 143; 102; 153; 43; 56; 25; 91; 155; 109; 89; 160]);
   (24051, [215; 86; 91; 93; 155; 150; 43]);
   (24052, [30; 89; 27; 209; 158; 155; 153; 29; 25; 94; 91; 52; 157; 126; 190; 32; 160; 93; 116; 17; 159; 31; 20; 71; 135; 64; 96; 148; 143; 180; 79; 84; 97; 99; 4; 68; 132; 62]);
   (24055, [218; 89; 25; 79; 42; 52; 91; 143; 94; 153; 84; 30; 96; 155; 148; 158]);
   (24061, [205; 155; 91; 30]);
   (24062, [89; 218; 155; 91; 148; 15; 153; 4; 143; 25; 79; 32; 20]);
   (24065, [89; 148; 217; 159; 153; 25; 116; 184; 81; 84; 91; 120; 96; 155; 27]);
   (24066, [25; 89; 116; 94; 217; 42; 81; 153; 159; 52; 102; 180; 158; 4; 148; 17; 20; 155; 68; 79; 160; 91; 143; 30; 132; 93; 184; 84; 15; 22; 145; 35; 32; 120; 150; 29; 27]);
   (24067, [116; 25; 27; 89; 217; 52; 158; 153; 30; 91; 155; 29; 94; 32; 157; 93; 79; 96; 132; 20; 143; 148; 56; 159; 120; 84; 17; 31; 244; 4; 15; 160]);
   (24069, [89; 91; 192; 27; 153; 116; 155; 219; 0; 25; 246; 96; 218]);
   (24070, [91; 217; 25; 96; 89; 143; 155; 116; 153; 92; 84]);
   (24072, [89; 218; 25; 27; 91; 155; 116; 52; 153; 159; 94; 143; 79; 81; 95; 17; 158; 160; 148; 84; 4; 15; 145; 171; 132; 56; 102; 96; 120; 29; 20; 43]);
   (24076, [52; 30; 155; 27; 158; 209; 91; 25; 29; 244; 32; 160; 93; 96; 31; 0; 157; 20; 56; 15; 159; 148]);
   (24079, [25]);
   (24080, [227; 25; 218; 89; 116; 86; 79; 32; 153]);
   (24081, [205; 89]);
   (24084, [205; 89; 79]);
   (24085, [27; 218; 89; 155; 30; 91; 29; 157; 158; 160; 93; 32; 94; 96]);
   (24086, [227; 89; 25; 218; 64; 91; 86; 116; 143; 190; 126; 153; 214]);
   (24088, [89; 25; 227; 218; 153; 143; 84; 91; 116; 96]);
   (24089, [227; 148; 89; 155]);
   (24090, [89; 218; 153; 143]);
   (24091, [218; 89; 91; 25; 155; 116; 79]);
   (24092, [89; 79; 218; 143; 227; 116; 91; 155]);
   (24093, [89; 25; 91; 209; 93; 116; 153; 218; 155; 27; 158; 160; 159; 96; 15; 29; 79; 148; 30; 81; 143]);
   (24102, [244; 52; 89; 116; 153; 25; 132; 143; 91; 148; 7; 96; 120; 32; 155; 68; 93; 79; 71; 81; 56; 0; 160; 30; 159; 135]);
   (24103, [227; 89; 86; 91; 214; 155]);
   (24109, [89; 116; 25; 227; 153; 86; 52; 148; 27; 214; 143; 15; 84; 91; 79; 159; 71; 7; 155; 158; 29; 28]);
   (24110, [52; 244; 25; 86; 89; 88; 81; 116; 91; 153; 148; 20; 56; 158; 155; 145; 96; 214]);
   (24119, [25; 218; 143; 153; 91; 89; 155]);
   (24120, [71; 64; 199; 25; 0; 7; 68; 52; 4; 27; 30; 153; 159; 107; 20; 17; 79; 116; 91; 89; 155; 56; 184; 132; 143; 148; 84; 93; 94; 126; 190; 28; 32; 180; 160; 29; 145; 120; 62; 158; 15]);
   (24123, [205; 91]);
   (24124, [143; 68; 148]);
   (24125, [89; 25; 217; 116; 153; 218; 148; 96; 155; 180; 158]);
   (24130, [217; 25; 91; 89]);
   (24132, [79; 205; 89; 153]);
   (24133, [89; 71; 25; 86; 227; 135; 81; 68; 214; 102; 15; 79; 148; 155]);
   (24140, [25; 94; 158]);
   (24148, [89; 25]);
   (24149, [89; 227; 25; 116; 86; 153; 42; 214; 68; 91; 217; 30; 155; 145; 15; 148]);
   (24155, [89]);
   (24158, [205]);
   (24161, [218; 89; 7; 155; 20; 91]);
   (24162, [227; 86; 89; 214; 190; 91; 126]);
   (24178, [244; 25; 52; 0; 89; 86; 7; 116; 150; 153; 158; 27; 62; 94; 190; 91; 84; 17; 148; 155; 143; 56; 64; 32; 79; 20; 15; 93; 81; 96; 30; 145; 126; 43; 157; 120; 160; 68; 92]);
   (24179, [0; 89; 25; 35; 244; 91; 158; 43; 52; 150; 94; 27; 64; 153; 116; 30; 155; 22; 15; 143; 96; 68; 62; 160; 32; 79; 56; 148; 20; 190; 126; 7; 31; 93; 92; 4; 84; 159; 29; 17; 180; 81; 1; 156; 157; 145; 132; 28]);
   (24180, [214; 86; 107; 227; 25; 43; 89; 102; 71; 0; 153; 17; 148; 171; 52; 4; 116; 91; 132; 99; 143; 81; 180; 20; 159; 35; 12; 84; 79; 22; 15; 27; 62; 96; 157; 92; 94; 184; 30; 158; 160; 155; 68; 88; 150; 76; 145; 32; 152; 120]);
   (24182, [198; 52; 6; 116; 7; 25; 71; 56; 143; 20; 30; 153; 15; 148; 89; 155; 120; 145; 4; 91]);
   (24184, [0; 89; 7; 64; 27; 218; 52; 116; 246; 25; 91; 15; 71; 65; 155; 20; 201; 79; 143; 120; 153; 30; 148]);
   (24186, [219; 155; 91; 89; 143]);
   (24187, [25; 89; 246; 52; 116; 27; 64; 143; 79; 153; 68; 148; 218; 91; 84; 32; 155; 160]);
   (24188, [25; 71; 194; 43; 0; 218; 89; 27; 153; 155; 81; 30; 79; 91; 84; 20; 148; 4; 17; 64; 143; 116; 145; 15]);
   (24189, [25; 0; 218; 194; 126; 52; 62; 155; 64; 190; 91; 246; 153; 79; 56; 3; 157; 116]);
   (24191, [30; 0; 25; 192; 4; 116; 32; 27; 56; 155; 96; 31; 91; 52; 81; 17; 64; 160; 143; 158; 159; 7; 20; 148; 79; 29; 209; 153; 92; 15; 43; 89; 156; 93; 95; 94; 145]);
   (24192, [205]);
   (24196, [91; 25; 27; 89; 219; 94; 0; 155; 30; 64; 158; 28; 218; 153; 96; 143; 116; 102; 157; 159; 160; 92; 194; 84; 93; 20]);
   (24198, [94; 246; 91; 107; 155; 52; 89; 158; 171; 25; 159; 116; 160; 30; 32; 96; 79; 92; 153; 93; 56; 27; 95; 29; 28; 20; 31]);
   (24199, [246; 52; 116; 155; 89; 25; 91; 153; 160]);
   (24202, [89; 25; 217; 116; 120; 96; 86; 153; 143; 148; 32; 160; 214]);
   (24203, [205]);
   (24207, [89; 25; 217; 64; 84; 116; 153; 148; 143; 180; 120; 91; 79; 155; 7; 132; 92; 160]);
   (24208, [30; 218; 89; 91; 25; 79; 94; 158; 32; 155; 116; 15; 148; 31]);
   (24209, [218; 89]);
   (24211, [25; 89; 217; 27; 29; 30; 91; 96; 158; 155; 153; 116; 94; 157; 81; 84; 93; 159; 52; 160; 35; 31; 32]);
   (24212, [52; 244; 116; 120; 56; 89; 153; 25; 84; 143; 155; 27; 71; 15; 148; 79; 91; 32; 30; 4; 94; 20; 96; 180; 92; 28; 160; 156; 158]);
   (24213, [204; 107; 71; 89; 65; 25; 12; 116; 106; 153; 84; 79; 170; 30; 158; 94; 91; 143; 157; 68; 93; 20; 148; 120; 160; 32; 96; 155; 184; 190; 126]);
   (24214, [218; 79; 25; 29; 15]);
   (24215, [89; 217; 25; 94; 116; 158; 102; 96; 95; 153; 30; 132; 160; 155; 93]);
   (24217, [217; 89; 25; 94; 91; 30; 155; 180; 158; 153]);
   (24218, [91; 155; 219; 22; 93; 32; 25; 153; 84; 96; 116; 160; 150; 29]);
   (24220, [89; 95; 218; 219; 91; 209; 84; 153; 25; 94; 155; 30; 158; 159; 68; 29; 143; 145; 79; 93; 17; 160]);
   (24222, [0; 27; 89; 219; 155; 15; 29; 91; 158; 30; 159; 25; 32; 157; 28]);
   (24223, [244; 52; 25; 116; 120; 153; 79; 64; 155; 4; 56; 89; 148; 143; 15; 194; 157; 17]);
   (24224, [205; 91; 25]);
   (24229, [205; 91; 155]);
   (24230, [89; 88; 71; 94; 227; 64; 86; 158; 153; 52; 84; 214; 116; 160; 120; 25; 91; 79; 68; 159; 143; 180; 155; 96; 56; 148; 15; 107; 93; 99; 81; 184; 20; 150]);
   (24231, [86; 227; 89; 25; 214; 116; 96; 91; 52; 153; 64; 132; 15; 84; 158; 160; 79; 32; 155; 148; 27]);
   (24237, [89; 91; 25; 218; 153; 116; 94; 155; 143; 52; 79; 84; 71; 148; 158; 95; 106; 132; 96; 4; 180; 12; 81; 156]);
   (24243, [205]);
   (24245, [218; 91; 89; 155; 94; 25]);
   (24246, [25; 64; 6; 89; 4; 153; 155]);
   (24247, [64; 27; 25; 91; 209; 155; 89; 94; 219; 52; 30; 32; 96; 28; 158; 153; 0; 159; 84; 160; 29; 31; 56; 15; 93; 143; 190; 126; 43; 157]);
   (24248, [0; 64; 158; 89; 148; 71; 25; 143; 93; 92; 62; 15; 52; 190; 153; 116; 155]);
   (24249, [227; 219; 27]);
   (24254, [27; 219; 158; 155; 91]);
   (24265, [194; 0; 64; 25; 93; 52; 27; 91; 84; 155; 89; 143; 157; 20; 148; 158; 116; 30; 15; 79; 159]);
   (24266, [89; 218; 25; 30; 91; 94]);
   (24273, [91; 205]);
   (24274, [205]);
   (24275, [89; 27; 52; 126; 64; 56; 158]);
   (24278, [27; 219; 155; 157; 20; 91; 158; 29]);
   (24283, [89; 205]);
   (24296, [205]);
   (24298, [205; 89; 91; 155]);
   (24310, [52; 91; 116; 30; 155; 209; 27; 25; 89; 29; 246; 32; 143; 15; 31; 148; 153; 158; 56; 94; 156; 64]);
   (24311, [89; 155; 205; 91; 94; 25; 153; 148; 159; 158; 93; 29; 27; 95]);
   (24314, [52; 25; 56; 116; 244; 64; 155; 94; 17; 148; 153; 32; 81; 31; 91; 159; 89; 158; 30; 29; 160; 43; 27; 96; 156; 68; 4; 28; 15; 93; 92; 145; 120; 20; 143; 84; 171]);
   (24319, [22; 214; 150; 86]);
   (24320, [52; 116; 244; 25; 65; 30; 155; 32; 56; 0; 86; 143; 20; 148; 159; 89; 214; 153; 15; 91; 79; 158; 84; 29; 94; 160; 4; 35; 12; 180; 43; 132; 31; 81; 7; 92; 64; 96; 17; 93; 190; 62; 157; 45]);
   (24321, [205; 91; 89]);
   (24322, [25; 89; 0; 246; 64; 7; 116; 148; 153; 4; 15; 79; 91; 52; 143; 180; 126; 155; 84; 20; 32; 96; 56; 120; 194; 132; 160; 29]);
   (24323, [116; 246; 153; 155; 52; 79; 143; 91; 120; 25; 15; 20; 148]);
   (24324, [244; 116; 52; 25; 143; 15; 89; 94; 120; 155; 158; 30; 148]);
   (24328, [116; 120; 246; 153; 25; 91; 155]);
   (24330, [218; 25; 89; 79; 116; 120; 153; 84]);
   (24331, [155; 218; 116; 30; 25; 91; 158]);
   (24335, [89; 211; 65; 68; 218; 84; 96; 155; 91; 64; 148; 25; 153; 180; 102; 52; 163; 71; 93; 160; 184; 159; 81; 143]);
   (24337, [246; 52]);
   (24339, [244; 25; 27; 217; 89; 91; 96; 116; 143; 79; 155; 153; 52; 84; 68; 94; 30]);
   (24341, [52; 244; 116; 25; 153; 91; 15; 89; 120; 20; 155; 148; 17; 160; 56; 143; 79; 32; 96]);
   (24343, [27; 201; 29; 155; 30; 91; 157; 96; 132; 93; 31; 158; 148; 143; 153; 32; 99; 0; 160]);
   (24344, [27; 91; 155; 219; 52; 43; 25; 64; 32; 156]);
   (24347, [64; 246; 120; 25; 0; 91; 92; 84; 79]);
   (24351, [89; 25; 217; 91; 153; 84; 155; 79; 81; 143; 159; 148]);
   (24352, [27; 227; 89; 86; 116; 64; 52; 28; 30; 91; 214; 143; 155; 153; 32; 15; 25; 126; 120; 94; 190; 79; 84; 102; 0; 148; 68; 132; 29; 158; 160]);
   (24357, [52; 25; 199; 153; 194; 155; 89; 148; 91; 20; 246; 15; 32; 143; 30; 158; 29; 92]);
   (24358, [217; 89; 153; 25; 91; 116; 143; 27; 15; 79; 155]);
   (24359, [25; 217; 89; 153; 160; 4; 148]);
   (24361, [218; 143; 25; 91; 153; 89]);
   (24362, [205]);
   (24365, [219; 116]);
   (24367, [52; 244; 116; 25; 89; 190; 62; 217; 143; 180; 153; 192; 84; 148; 120; 126; 79; 91; 0]);
   (24369, [192; 64; 116; 25; 89; 52; 84; 65; 0; 148; 153; 126; 143; 79; 15; 4; 91; 145; 155; 160]);
   (24377, [89; 116; 25; 244; 52; 153; 84; 56; 15; 91; 120; 79; 143; 20; 180; 160; 148; 145; 81]);
   (24378, [116; 192; 0; 52; 25; 64; 91; 89; 56; 20; 7; 27; 143; 148; 153; 92; 68; 4; 15; 79; 95; 155; 32; 93; 96; 81; 84; 190; 126; 160; 102; 94; 158; 132; 31; 156; 65; 17]);
   (24380, [91; 205; 155; 156; 116; 79; 92; 28]);
   (24384, [217]);
   (24402, [244; 52; 116; 56; 25; 143; 79; 153; 27; 15; 89; 71; 91; 20; 84; 155; 94; 30; 29; 148; 158; 32; 159; 120]);
   (24403, [43; 226; 7; 52; 116; 64; 71; 42; 25; 180; 12; 89; 143; 98; 34; 15; 148; 70; 79; 30; 84; 97; 56; 190; 126; 158; 160; 153; 157; 93; 155; 91; 20; 33; 94; 161; 128; 140; 171]);
   (24405, [116; 89; 244; 52; 25; 153; 91; 155; 120; 96; 56; 160; 148; 81; 143; 180; 159; 79]);
   (24406, [205]);
   (24407, [25; 153; 155]);
   (24408, [205; 91]);
   (24413, [209; 32; 158; 91; 155; 30; 25; 20]);
   (24418, [25; 52; 89; 218; 116; 68; 153; 148; 143; 20; 15; 135; 79; 158; 91; 94; 84; 96; 155; 120; 170; 4; 180; 160; 64]);
   (24420, [92; 126; 190; 25]);
   (24422, [205; 155; 91; 158; 28; 89; 160; 93]);
   (24425, [25; 89; 218; 64; 4; 79; 91; 155; 68; 143; 116; 153; 96; 120; 148; 84; 20; 32; 52; 190; 29; 17; 158; 126; 160; 132; 15]);
   (24426, [91; 227; 155; 15; 0; 52; 92; 4]);
   (24428, [143; 15; 92; 96; 79; 30]);
   (24429, [27; 219; 30; 91; 214; 155; 29; 92; 96; 93; 28; 0]);
   (24432, [116; 194; 30; 52; 79; 91; 155; 153; 64; 84]);
   (24433, [56; 89; 25; 217; 153; 116; 4; 143; 91; 79; 120; 159; 52; 148; 155; 15; 218; 81; 20; 84; 246; 180; 158; 29; 160; 171; 17]);
   (24435, [251; 25]);
   (24439, [52]);
   (24441, [89; 218; 116; 68; 96; 120; 153; 52; 102; 25; 91; 155; 148; 79; 29; 94; 158; 95]);
   (24443, [1; 116; 246; 158; 64; 91; 7; 143; 15; 155; 62; 159; 25; 157; 20; 56; 93; 190]);
   (24444, [38; 230; 158; 29; 143; 25; 30; 43; 79; 148; 155; 157; 15; 20; 160; 91]);
   (24448, [226; 116; 71; 7; 43; 52; 107; 120; 56; 25; 79; 143; 53; 180; 91; 84; 148; 155; 4]);
   (24449, [89; 52; 116; 244; 91; 25; 56; 153; 155; 143; 17; 94; 120; 96; 81; 79; 158; 159; 160; 92; 84; 32]);
   (24450, [205]);
   (24452, [89; 25; 218; 7; 68; 143; 91; 148; 84; 153; 79; 116; 155; 159; 30; 32]);
   (24453, [116; 244; 25; 79; 52; 153; 143; 148; 89; 7; 56; 15; 155; 120; 91; 20; 84; 160]);
   (24455, [246; 52; 15; 143; 20]);
   (24456, [199; 22; 0; 7; 20; 150; 25; 155]);
   (24457, [116; 251]);
   (24458, [116; 246; 251]);
   (24459, [89; 25; 219; 71; 155; 158; 153; 91; 218; 84; 116; 94; 159; 79; 246; 120; 96; 180; 148; 52; 68; 143; 160; 17]);
   (24460, [219; 91]);
   (24464, [27; 219; 30; 91; 71; 155; 7; 28; 92; 25; 62; 29; 20; 148; 94; 31; 52; 143; 158; 126; 32]);
   (24466, [89; 199; 25; 148; 91; 155; 7; 52; 79; 15; 116; 93; 158; 4; 157; 143; 153; 20; 30; 84; 70]);
   (24469, [116; 251; 155]);
   (24471, [238; 116; 52; 71; 135; 180; 153; 0; 64; 89; 148; 155; 158; 143; 25; 84; 79; 91; 128; 15; 93; 94; 30; 96; 20; 67; 157; 68; 32; 92; 31; 160; 120; 159; 29; 56]);
   (24472, [52]);
   (24473, [246; 89; 116; 143]);
   (24476, [52]);
   (24481, [246; 116; 25; 153; 155; 52; 91; 4; 29; 30; 56; 15; 160]);
   (24488, [116; 251]);
   (24490, [56; 116; 246; 153; 143; 20; 15; 91; 52; 25; 7; 30; 155; 4; 79; 94; 158; 32; 132]);
   (24493, [25; 148; 20]);
   (24494, [25; 71; 56; 0; 199; 7; 192; 64; 52; 4; 91; 153; 20; 15; 155; 116; 22; 79; 35; 17; 126; 190; 62; 67; 84; 120; 143; 30; 68; 194; 96; 31; 148; 150; 86; 160; 32; 163; 158; 94]);
   (24501, [91; 205; 155]);
   (24503, [30; 91; 155; 209; 89; 93; 27; 158; 94; 25; 17; 29; 32; 107; 96; 31; 157; 79; 116; 160; 153; 15; 64; 159; 143; 81; 92; 156; 163; 4; 148; 84; 95; 28; 180; 20]);
   (24508, [205]);
   (24509, [94; 158; 25; 89; 209; 155; 91; 218; 96; 159; 30; 157; 153; 156]);
   (24515, [89; 25; 42; 116; 217; 64; 143; 52; 153; 15; 71; 79; 0; 65; 155; 84; 148; 91; 95; 106; 68; 27; 20; 4; 102; 96; 94; 158; 32; 120; 93; 56; 16; 17; 132; 180; 145; 159; 190; 126; 160; 156; 128; 92; 184]);
   (24517, [7; 71; 199; 0; 52; 20; 25; 148; 143; 155; 180; 56; 91; 153; 15; 79; 160; 158; 102; 32; 29]);
   (24518, [116; 89; 91; 153; 244; 143; 155; 52; 27; 20; 56; 84; 25; 246; 160]);
   (24524, [244; 89; 52; 116; 143; 79; 153; 84; 91; 56; 43; 120; 25]);
   (24525, [52; 244; 116; 64; 15; 143; 148; 79; 91; 7; 25; 84; 153; 155; 32; 56; 156]);
   (24527, [52; 56; 25; 116]);
   (24528, [15; 0]);
   (24529, [143; 64; 251]);
   (24530, [199; 155; 91; 126; 190]);
   (24534, [116; 52]);
   (24535, [89; 217; 155; 91; 25; 94; 153; 116; 159; 79; 15; 158; 27; 143; 43; 52; 160; 180; 84; 156; 30; 29; 28; 96; 20; 93; 92; 32; 132]);
   (24536, [244; 52; 116; 153; 143; 79; 15; 64; 4; 148; 25; 7; 120; 84; 20; 91]);
   (24537, [244; 71; 116; 65; 64; 0; 52; 190; 126; 91; 79; 143; 7; 89; 62; 84; 148; 15; 20; 155; 25; 153; 135]);
   (24541, [246; 91; 155]);
   (24544, [91; 219; 25; 155; 0; 52; 116; 15; 246; 143; 64; 4; 20; 89; 30; 158; 29; 148; 92; 94; 156; 27]);
   (24545, [79; 143; 89; 251]);
   (24548, [194; 52; 20; 155; 116]);
   (24551, [116; 244; 0; 52; 56; 25; 143; 89; 15; 79; 96; 91; 84; 218; 64; 153; 148; 3]);
   (24554, [79; 64; 251]);
   (24555, [192; 71; 7; 116; 64; 0; 25; 126; 62; 79; 84; 32; 148; 143; 190; 52; 56; 89; 15; 153; 159; 91; 68; 81; 17; 65; 155; 20; 128; 4; 3; 30]);
   (24557, [205; 91]);
   (24558, [205]);
   (24561, [89; 218; 91; 64; 79; 155]);
   (24565, [89; 244; 116; 153; 52; 25; 143; 15; 91; 155; 158; 27; 30; 180; 0; 160; 84; 148; 120; 4; 132; 79; 159]);
   (24568, [0; 15]);
   (24571, [30; 219; 27; 91; 155; 158]);
   (24573, [7; 199; 52; 148; 116; 62; 71; 190; 20; 155; 91; 143; 126; 150; 33; 120; 32; 64; 15]);
   (24574, [79; 205; 143]);
   (24575, [0; 15; 143; 25]);
   (24576, [52; 244; 42; 25; 91; 116; 27; 155; 89; 120; 30; 143; 79; 148; 29; 20; 56; 15; 43; 84; 94; 71; 64; 158; 135; 92; 157; 32; 126; 156; 160]);
   (24577, [89; 25; 217; 116; 153; 84; 148; 79; 143; 218; 91; 180; 120; 64; 155; 160]);
   (24578, [246; 52; 91]);
   (24580, [244; 52]);
   (24581, [64; 0; 7; 15; 135]);
   (24582, [64; 205; 67]);
   (24586, [205]);
   (24589, [205]);
   (24590, [38; 230; 148; 6; 20; 155]);
   (24591, [126; 62; 15; 143; 190]);
   (24594, [116; 246; 25; 64; 15; 52; 30; 91; 143; 79; 89; 148; 32; 62; 155; 158; 20; 56; 153]);
   (24596, [244; 52; 116; 25; 91; 190; 126]);
   (24597, [244; 116; 71; 64; 70; 0; 148; 143; 79; 84; 52; 25; 81]);
   (24598, [64; 153; 246; 79; 84; 155; 91]);
   (24601, [205; 15]);
   (24603, [205; 91]);
   (24604, [116; 52; 64; 246; 190; 79; 180; 153; 15; 56; 91; 155; 148; 120; 143]);
   (24605, [25; 89; 52; 155; 91; 116; 244; 153; 143; 64; 84; 27; 79; 148; 32; 15; 93; 20; 30; 56; 29; 120; 160; 96; 158; 94; 156; 92; 157]);
   (24608, [194; 52; 64; 25; 0; 148; 91]);
   (24609, [246; 91; 0; 155; 32; 25; 79; 52; 15; 62; 29; 30; 31]);
   (24613, [244; 64; 7; 25; 52; 0; 62; 120; 79; 15; 4; 143; 116; 148; 190; 1; 20; 56; 89; 68; 145; 153; 126; 84; 32; 160; 17; 159]);
   (24614, [97; 33; 20; 62; 225]);
   (24615, [89; 25; 217; 68; 153; 71; 148; 91; 116; 180; 143; 84; 120; 56; 0; 96; 64; 218; 155; 184; 81; 79; 52; 160; 171; 20; 15]);
   (24616, [116; 244; 25; 89; 52; 15; 7; 64; 79; 143; 148; 248; 56; 153; 84]);
   (24617, [64; 251; 143]);
   (24618, [116; 244; 192; 25; 64; 89; 71; 79; 0; 7; 143; 52; 20; 84; 91; 148; 62; 190; 15; 96; 135; 180; 126; 30]);
   (24619, [205]);
   (24623, [192; 64; 0; 62; 126; 25; 116; 67; 52; 190]);
   (24629, [246; 116; 15]);
   (24635, [25; 196; 7; 52; 6; 153; 159; 91; 4; 89; 116; 155; 20; 17; 68; 160; 71; 148; 32; 120; 81; 158; 84; 31; 145; 30; 42; 56; 92]);
   (24636, [205; 116]);
   (24639, [205; 91]);
   (24641, [205; 45]);
   (24642, [91; 205; 155]);
   (24643, [246; 116; 143; 15; 91; 79]);
   (24651, [116; 52; 244; 25; 180; 120; 15; 143; 148; 91; 89; 153; 160; 155; 248])].
Definition pos_chars_7 : list (char * list N) :=
  [(24653, [246; 0; 15; 7; 52; 143; 190; 62; 1; 91; 64; 155]);
   (24656, [7; 199; 0; 3; 64; 25; 116; 143; 79; 52; 89; 91; 32; 148; 155]);
   (24658, [25; 219; 32; 91; 17; 126; 3; 116; 153; 160; 30; 155; 218; 194; 79; 0; 148; 94; 1; 29; 31; 96; 15; 156; 92]);
   (24661, [246; 219; 116; 52; 91; 155; 20; 120]);
   (24665, [79; 126; 84; 25; 89]);
   (24666, [205; 91]);
   (24674, [52; 194; 25; 0; 43; 91; 155; 148; 79; 143; 4; 84]);
   (24675, [7; 52; 143; 15]);
   (24676, [116; 153; 120; 25]);
   (24679, [205]);
   (24680, [244; 116; 7; 89; 64; 120; 27; 79; 15; 52; 148; 160; 25; 143; 155; 153; 84]);
   (24681, [91; 155; 116; 219; 25; 218; 27; 89; 209; 93; 157; 143; 29; 30; 84; 52; 153; 171; 0; 56; 94; 159; 32; 15; 96; 158; 62; 190; 148]);
   (24682, [52; 92; 20]);
   (24683, [56]);
   (24684, [0; 92; 15; 143; 62; 64]);
   (24685, [0; 194; 52; 91; 143; 190; 62; 155; 64; 25; 79; 30; 160; 116; 20; 15; 148; 56; 92]);
   (24687, [89; 116; 217; 153; 68; 91; 25; 180; 79; 143; 184; 84; 15; 52; 160; 159; 64; 120; 96; 148; 171; 155; 30; 107; 95; 218; 246]);
   (24688, [7; 199; 71; 0; 52; 134; 6; 15; 30; 155; 91; 158; 93; 94; 27; 29]);
   (24691, [52; 64; 0; 190; 126; 25; 128]);
   (24694, [192; 25; 0; 52; 64; 116; 89; 143; 4; 20; 62; 15; 7; 79; 91; 153; 148; 155; 120; 84; 190; 3; 96; 67; 145]);
   (24696, [64; 205; 52]);
   (24697, [126; 62; 190]);
   (24698, [91; 205; 155; 156; 29]);
   (24699, [15; 194; 79; 64; 52; 155]);
   (24700, [64; 244; 52; 0; 116; 67; 15; 84; 120]);
   (24701, [27; 219; 91; 155; 28]);
   (24703, [116; 251; 91; 155]);
   (24707, [205]);
   (24708, [7; 190; 71; 62; 126; 20; 25; 153; 155; 91]);
   (24713, [116; 7; 193; 246; 30; 155; 91; 31; 20; 32; 158]);
   (24716, [205; 91; 155]);
   (24717, [64; 7; 67; 25; 79; 0; 15]);
   (24722, [62; 64; 126]);
   (24724, [116; 246; 52; 15; 143; 148; 153; 84; 79; 25; 120; 56; 155; 91]);
   (24726, [246; 25; 116; 180; 79; 52; 0]);
   (24730, [143; 205; 0; 64; 91]);
   (24731, [79; 205]);
   (24733, [91; 205]);
   (24735, [244; 116; 89; 79; 155; 52; 25; 93; 91; 64; 120; 159; 84; 158; 246; 153; 94]);
   (24736, [0; 126; 62; 190; 116; 244; 15; 1; 3; 91; 52; 20; 155; 148; 153; 89]);
   (24739, [25; 244; 89; 52; 79; 116; 15; 81; 143; 145; 153; 148; 80; 84]);
   (24742, [64; 246; 91; 0; 143; 116; 32; 155; 30; 194; 153; 67]);
   (24744, [230; 20; 38; 40; 148; 91]);
   (24747, [194; 91]);
   (24748, [244; 52; 25; 0; 15; 116; 148; 143; 91; 153; 79; 32; 155; 56]);
   (24749, [0; 205]);
   (24751, [116; 205; 120; 126; 143; 91; 155]);
   (24753, [143; 246; 0]);
   (24754, [0; 25; 64; 195; 246; 3; 15; 52; 89; 79; 143; 155; 194; 20; 84; 62; 1; 190; 116; 148; 91]);
   (24756, [64; 205; 84]);
   (24760, [116; 79; 56; 89]);
   (24763, [7; 71; 135]);
   (24764, [153; 116; 52; 246; 155; 25; 120; 56]);
   (24773, [25; 89; 217; 116; 64; 143; 153; 52; 71; 15; 79; 20; 148; 120; 84; 91; 0; 102; 43; 155; 159; 171; 160; 180; 32; 67; 145]);
   (24774, [0]);
   (24778, [0; 244; 52; 116; 64; 143; 15; 79; 25; 148; 91; 84; 1; 20; 56; 43; 155; 153]);
   (24779, [0; 116]);
   (24785, [116; 64; 120; 244; 143; 153; 84; 148; 52; 89; 91; 246; 155; 15]);
   (24789, [116; 153; 205; 91; 79; 155; 143]);
   (24792, [64; 62; 15]);
   (24794, [64; 79; 190; 126; 251; 65]);
   (24796, [116; 246; 64; 52; 27; 91; 143; 79; 155; 84; 148; 15; 120; 0; 56]);
   (24797, [0; 251]);
   (24799, [199; 52; 4; 70; 7; 198; 155; 91; 15; 143; 6; 116; 237]);
   (24800, [120; 27; 155; 30; 219; 64; 91; 116; 218; 153; 32; 52; 89; 148; 96; 94; 81; 29; 79; 31; 15; 143; 246; 93; 158]);
   (24806, [52; 244; 91]);
   (24807, [67; 244; 116; 64; 52; 153; 79; 25; 155; 0]);
   (24808, [0; 25; 192; 64; 52; 62; 15; 190; 126; 143; 56; 193; 79; 91]);
   (24809, [52; 116; 246; 56; 25; 89; 143; 15; 20; 153]);
   (24811, [116; 64; 148; 205; 0; 153]);
   (24812, [0]);
   (24813, [0; 64; 194; 143; 79; 91]);
   (24814, [79; 116; 246]);
   (24815, [89; 25; 244; 180; 52; 153; 116; 7; 79; 143; 56; 148]);
   (24816, [25; 194; 64; 20; 32]);
   (24819, [244; 52; 89; 116; 148; 25; 120; 20; 153; 79; 7; 143; 15; 91; 159; 84; 180; 96; 155; 128; 56; 184; 64]);
   (24820, [15; 143; 62; 126; 190]);
   (24822, [0; 143; 64; 15; 62; 79; 126; 65; 190]);
   (24825, [244; 52; 116; 15; 20; 0; 143; 158; 94; 91; 155; 64; 148]);
   (24826, [143; 190; 126; 15; 20; 148; 79; 0; 62]);
   (24832, [251]);
   (24833, [244; 116; 64; 25; 15; 0; 143; 89; 155; 148; 79; 20; 91; 158; 84]);
   (24838, [205; 89; 52]);
   (24840, [199; 7; 116; 71; 52; 20; 148; 91; 92; 143; 155; 84; 153; 156]);
   (24841, [0; 64]);
   (24845, [205; 155]);
   (24846, [205; 143; 67]);
   (24847, [25; 116; 89; 218; 71; 52; 30; 0; 153; 64; 79; 143; 148; 65; 128; 158; 20; 84; 15; 91; 180; 135; 56; 159; 68; 209; 32; 160; 31; 155; 120; 96; 17; 132]);
   (24853, [0; 64; 116]);
   (24858, [91; 0; 244; 25; 52; 15; 89; 27; 79; 155; 20; 43; 64; 143; 84]);
   (24863, [52; 25; 89; 246; 64; 116; 153; 0; 148; 20; 56; 15; 43; 68; 94; 143; 91; 32; 180; 158; 79; 84; 67; 96; 120; 160]);
   (24864, [52; 25]);
   (24867, [244; 52; 116; 190; 126; 62; 79]);
   (24868, [52; 64; 0; 89; 248; 7; 143; 71; 15; 56; 116; 84; 246; 120; 153; 25; 218; 65; 20; 67]);
   (24870, [205; 64]);
   (24871, [64; 116; 246; 79; 0; 71; 180; 52; 25; 143; 148; 91; 1; 84; 155; 120]);
   (24875, [205; 89; 91; 155]);
   (24895, [244; 52; 116; 89; 25; 153; 79; 71; 143; 159; 180; 84; 91; 120; 81; 155; 15; 148; 68]);
   (24904, [0; 29; 27; 194; 91; 25; 64; 155; 30; 143; 148; 93; 15; 160; 158; 96; 159]);
   (24906, [205; 91]);
   (24908, [192; 244; 1; 64; 67; 0; 143; 190; 62; 153; 65; 15; 126; 116; 52; 148; 89]);
   (24910, [64; 0; 71; 79; 52; 192; 27; 91; 84; 155; 219; 143; 20; 89; 194; 92; 15; 193]);
   (24913, [116; 246; 89; 120; 153; 52]);
   (24917, [27; 116; 30; 219; 155; 158; 218; 52; 91; 84; 89; 246; 120; 20; 159; 160; 25; 94]);
   (24925, [205]);
   (24930, [7; 71; 192; 64; 4; 116; 25; 62; 84; 89; 52; 15; 32; 153; 148; 120; 132; 20; 143; 91; 190; 6; 43; 155]);
   (24935, [27; 91; 89; 155; 218; 64; 29; 25; 148; 84; 158; 143; 0; 20; 32]);
   (24936, [64; 116; 143; 65; 52; 7; 148; 218; 79; 194; 56; 89; 15; 20; 155; 128; 91]);
   (24944, [116; 52; 64; 246; 91; 155; 25; 120; 56; 153; 79; 67]);
   (24949, [205; 0]);
   (24951, [0; 15; 1; 246; 143; 91; 84; 155]);
   (24971, [244; 0; 20]);
   (24974, [52; 246; 89; 64; 143; 79; 194; 155]);
   (24980, [0; 148]);
   (24989, [205]);
   (24999, [52; 148; 84]);
   (25000, [218; 0; 52; 64; 155; 25; 20; 190; 91; 62; 194]);
   (25001, [116; 246; 52; 120; 91]);
   (25004, [116; 52]);
   (25015, [205; 116; 91]);
   (25022, [64; 89; 218; 116; 79; 194; 25; 84]);
   (25026, [244; 52; 0; 116; 64; 84; 148; 79; 143; 126; 91; 153]);
   (25032, [246; 64; 126; 0; 79; 148; 143; 116; 84]);
   (25034, [52; 56]);
   (25035, [205; 91; 155; 25; 32]);
   (25041, [64; 205; 89]);
   (25042, [192; 52; 25; 62; 0; 116; 64; 89; 79; 180; 143; 84; 155]);
   (25044, [205; 91]);
   (25062, [194; 1; 64; 25; 0; 155]);
   (25077, [244; 52; 20; 148; 190; 62; 91]);
   (25087, [205; 91; 155; 25]);
   (25096, [27; 25; 155; 91; 219; 116; 29; 89; 158; 93; 143; 160; 157; 218; 79; 84; 32; 94; 30; 153; 148; 96; 86; 28; 99]);
   (25098, [215; 25; 20; 153; 22; 32; 155; 160; 91; 96; 43]);
   (25099, [251]);
   (25100, [148; 86; 160; 153; 150; 43]);
   (25101, [246; 52; 116; 68; 25; 153; 91; 89; 159; 155]);
   (25102, [219; 27; 91; 25; 15; 155; 52; 143; 89; 79; 93; 116; 20]);
   (25103, [25; 89; 217; 116; 52; 159; 153; 84; 79; 32; 180; 143; 148; 96; 81; 17; 171; 31; 56; 160; 91]);
   (25104, [116; 52; 244; 25; 0; 92; 91; 86; 30; 148; 153; 27; 89; 143; 155; 160; 56; 93; 15; 120; 79; 214; 7; 68; 94; 96; 20; 156; 4; 84; 32; 43; 145; 180; 158; 17; 31; 64; 22; 128; 29; 150; 157; 28; 71; 24; 159]);
   (25105, [230; 38; 25; 102; 148; 143; 89; 153; 116; 15; 32; 68; 79; 20; 71; 91; 155; 93]);
   (25106, [89; 25; 244; 52; 120; 116; 153; 15; 79; 143; 56; 30; 84; 148; 171; 155; 0; 32; 91]);
   (25109, [52; 56]);
   (25110, [198; 6; 7; 70; 135; 71; 148; 91; 52; 25]);
   (25111, [244; 64]);
   (25112, [25; 116; 246; 89; 160; 56; 96; 120; 52; 153; 43; 81; 159; 27; 79; 148; 143; 68; 84; 91; 15; 93; 155; 62; 32; 64; 102; 92; 20; 17; 158; 145]);
   (25114, [89; 27; 219; 153; 91; 64; 143; 155; 30; 116; 84; 28; 25]);
   (25115, [30; 15; 153]);
   (25119, [218; 89; 91; 153; 79; 143; 155]);
   (25121, [246; 52; 91; 155]);
   (25122, [219]);
   (25124, [205]);
   (25125, [244]);
   (25130, [52; 244; 116; 86; 25; 143; 15; 7; 56; 153; 150; 71; 89; 160; 120; 227; 155]);
   (25132, [91; 205; 155]);
   (25134, [116; 120; 15; 143]);
   (25139, [244; 52; 89; 25; 116; 180; 155]);
   (25140, [244; 27; 116; 89; 143; 32; 158; 20; 155; 29; 91; 15; 28; 120; 52; 79; 153; 30; 148]);
   (25143, [89; 227; 25; 86; 116; 153; 214; 79; 143; 94; 42; 102; 84; 17; 27; 158; 155; 32; 71; 91; 160; 30; 35; 99; 120; 96; 81; 93; 15]);
   (25149, [244]);
   (25150, [205; 64; 126]);
   (25151, [25; 89; 17; 217; 116; 42; 153; 120; 27; 30; 158; 91; 52; 94; 32; 143; 155; 96; 81; 68; 84; 160; 56; 159; 31; 148]);
   (25152, [237; 6; 89; 25; 4; 116; 52; 143; 81; 134; 95; 86; 148; 214; 153; 15; 94; 20; 102; 79; 7; 155; 96; 30; 91; 29; 170; 158; 93; 84]);
   (25153, [192; 25; 4; 27; 62; 91; 20; 52; 155; 190; 153]);
   (25155, [205]);
   (25159, [227; 89; 25; 86; 244; 52; 217; 116; 214; 79; 143; 15; 155; 96; 153; 32; 30]);
   (25160, [27; 64; 25; 219; 79; 158; 157; 30; 91; 155]);
   (25161, [89; 25]);
   (25163, [25; 217; 89; 116; 42; 52; 71; 86; 153; 143; 4; 214; 160; 15; 64; 148; 79; 68; 84; 32; 0; 190; 180; 20; 7; 91; 150; 155; 120; 132; 17; 95; 158; 93; 128; 96; 30]);
   (25165, [199; 89; 107; 91; 71; 52; 25; 143; 155; 116; 79; 7; 15; 64; 158; 84; 153; 20; 120; 27; 92; 148; 30; 157; 156]);
   (25166, [116; 244; 0; 52; 30; 155; 158; 29; 89; 91; 56; 143; 93; 27; 62; 190; 94; 79; 25; 157; 153; 32; 120; 15]);
   (25169, [244; 52; 33; 89; 116; 25; 15; 153; 20; 190; 126; 62; 148; 143; 120; 155; 0]);
   (25170, [244; 52; 25; 143; 158; 91; 89; 56]);
   (25171, [52; 244; 116; 25; 143; 20; 89; 86; 15; 148; 56; 159; 79; 98; 153; 96; 84; 32; 180; 91; 17; 155; 120; 94; 214; 71; 160; 7; 30; 158]);
   (25172, [244; 52]);
   (25176, [116; 244; 89; 52; 153; 27; 25; 91; 155; 29; 93; 158; 120; 180; 94; 160; 157; 30; 56; 68; 159; 143; 32; 96; 81; 20; 17]);
   (25179, [244; 52; 20]);
   (25187, [52; 244; 89; 116; 25; 79; 84; 15; 91; 153; 96; 148; 56; 155]);
   (25190, [52; 25]);
   (25191, [52; 56; 244; 25; 116; 0; 7; 153; 64; 91; 143; 155; 15; 20; 159; 89; 17; 32; 148; 158]);
   (25193, [52; 246; 91; 25; 56; 145; 153; 20; 4; 32; 120]);
   (25194, [15; 143]);
   (25195, [52; 244; 116; 25; 0; 143; 56; 20; 180; 148; 15; 153; 160; 96; 17; 120]);
   (25196, [116; 30; 246; 52; 143; 91; 79; 25; 32; 27; 15; 64; 155; 94; 158; 93; 120; 157; 89; 153; 148; 56; 7; 244; 29; 20; 92; 180; 96; 190; 126]);
   (25197, [52; 244; 25; 64; 20; 190; 126; 116; 0; 62; 15; 143; 148; 32]);
   (25198, [116; 52; 244; 79; 25; 148]);
   (25199, [244; 116; 52; 148; 84; 79; 143; 56]);
   (25200, [116; 244; 52; 56; 120; 153; 84; 160; 25; 79; 91; 143; 155]);
   (25203, [244; 25; 52; 89; 248]);
   (25206, [244; 52; 116; 30; 27; 25; 56; 91; 153; 15; 68; 143; 155; 62; 7; 20; 159; 96; 17; 32; 160; 31; 148]);
   (25209, [86; 52; 227; 116; 25; 56; 71; 7; 150; 153; 214; 68; 148; 89; 20; 120; 22; 158; 17; 15]);
   (25212, [52; 246; 0; 148; 1; 20; 56]);
   (25214, [244; 52; 116; 25; 64; 148; 32; 20]);
   (25215, [52; 116; 155; 25; 219; 153; 91; 56; 246; 27; 89; 30; 209; 79; 84; 15; 148; 32; 120; 96; 4; 0; 143; 20; 156; 132; 180; 160]);
   (25216, [25; 89; 153; 96; 218; 159; 20; 17; 209; 132; 81; 95; 158; 143; 79; 145; 148; 160; 155; 52; 91; 84; 116; 180; 4]);
   (25220, [244; 52; 116; 25; 153; 89; 68; 20; 91; 56; 120]);
   (25225, [52; 56; 246]);
   (25226, [226; 86; 52; 25; 89; 153; 148; 116; 180; 96; 214; 79; 84; 150; 171; 143; 155; 32; 160; 91; 20; 15]);
   (25233, [52; 116; 246; 0; 25; 6; 15; 32; 56; 155; 20; 153; 120; 91; 160; 148]);
   (25234, [52; 25; 56; 246; 143; 91]);
   (25235, [52; 244; 116; 25; 148; 15; 84; 32; 20; 79; 56]);
   (25237, [56; 25; 52; 244; 116; 81; 143; 159; 15; 17; 145; 32; 160; 153; 158; 94; 148; 95; 79; 155; 20; 0; 120]);
   (25238, [244; 116; 52; 143; 15; 190; 126; 56; 91; 20; 155]);
   (25239, [52; 244; 116; 56; 25; 32; 120; 153; 20; 17; 89; 31; 91; 148; 155; 143; 79; 4; 159; 96; 158; 160; 68]);
   (25240, [52; 244; 25; 89; 64; 116; 214; 86; 120; 153; 56; 143; 27; 79; 180; 91; 4; 84; 155; 190; 126; 148; 30; 32; 15]);
   (25242, [246; 52; 89; 116; 155; 30; 91; 120; 25; 158; 56; 15; 153; 32; 31; 159; 143]);
   (25243, [244; 52; 25; 56; 15; 20]);
   (25247, [244; 91]);
   (25248, [244; 0; 52; 20; 148]);
   (25249, [244; 91]);
   (25250, [52; 244; 0; 116; 25; 91; 143; 148; 20; 81; 153; 32; 30; 155; 56]);
   (25252, [116; 153; 25; 52; 244; 120; 89; 32; 56; 155; 91; 148; 158; 94; 160; 96; 79; 159]);
   (25253, [89; 25; 52; 217; 116; 102; 120; 96; 153; 56; 143; 95; 81; 159; 91; 148; 20; 79; 15; 84; 155; 30; 94; 32; 160]);
   (25256, [52]);
   (25259, [52; 244; 25; 116; 15; 143; 89; 20; 155; 32; 91; 158; 31]);
   (25260, [52; 244; 143; 25; 20; 116; 148; 153]);
   (25265, [244; 52; 116; 89; 0; 25; 15; 91; 143; 155; 20; 148; 132; 84; 30; 29]);
   (25269, [52; 56; 244; 116; 25; 71; 148; 89; 7; 68]);
   (25273, [244; 116; 52; 86; 25; 143; 79; 91; 148; 180]);
   (25275, [244]);
   (25276, [116; 244; 120; 52; 25; 153; 0; 155; 91; 89; 56]);
   (25277, [52; 244; 0; 25; 20; 56; 143; 32; 190; 62; 4; 96; 159; 43; 15; 7]);
   (25279, [244; 91; 25]);
   (25282, [244; 116; 43; 52; 15; 155; 25; 120; 91; 143]);
   (25284, [244; 52]);
   (25285, [52; 116; 56; 89; 244; 25; 86; 227; 153; 148; 15; 91; 84; 214; 143; 99]);
   (25286, [52; 244; 116; 25; 153; 56; 143; 160; 20; 180; 89; 17; 91; 155]);
   (25287, [153; 25]);
   (25288, [244; 52; 15; 143]);
   (25289, [244; 158; 52; 155; 93; 153; 27; 91; 30; 94; 29; 157; 25; 160; 89; 32; 116; 99; 17; 96; 159; 148; 20; 120; 143; 190; 126; 81; 86; 97; 150; 15; 132; 161; 31; 56; 62; 79; 64; 84; 1; 0]);
   (25290, [205]);
   (25292, [244; 116; 52; 153; 56; 120; 148; 89; 160]);
   (25293, [52; 244; 116; 25; 89; 153; 15; 143; 91; 148; 20; 84; 180; 159; 120; 155]);
   (25294, [244; 25; 91]);
   (25296, [25; 244; 52; 15; 42; 153; 91; 89; 148; 116; 155; 81; 84; 145]);
   (25298, [52; 246; 116; 20; 30; 15; 79; 148; 32; 155]);
   (25299, [52; 116; 244; 27; 25; 153; 91; 143; 148; 32; 155; 64; 96; 132]);
   (25300, [89; 244; 116; 52; 155; 64; 143; 91; 15; 79; 0; 148; 56; 153; 25; 96]);
   (25302, [244; 52; 25; 153; 81; 56; 148; 84; 32; 15; 0; 91; 62; 190; 116; 155; 150; 143; 94; 20; 22; 95]);
   (25303, [192; 25; 64; 116; 52; 0; 155]);
   (25304, [52; 246; 0; 116; 143; 25; 81; 160; 56]);
   (25305, [64; 194; 0; 79; 30; 91; 25; 116; 143]);
   (25306, [52]);
   (25307, [52; 25; 217; 56; 31; 17; 244; 27; 86; 180; 89; 15; 20; 143; 116; 91; 153; 81; 1; 155; 30; 148; 84; 32; 79; 158; 214; 120; 160]);
   (25308, [244; 94; 52; 116; 89; 158; 25; 153; 91; 155; 29; 30; 31; 171; 79; 93; 84; 143; 32; 27; 107; 120; 160]);
   (25311, [244; 116; 52; 68; 7; 25; 120; 79; 153; 132; 160; 4; 180; 56]);
   (25314, [116; 244; 148; 91; 52; 7; 120]);
   (25315, [244; 116; 52; 143; 190; 126; 153; 155]);
   (25317, [52; 244; 116; 0; 143; 25; 91; 79; 155; 15; 20; 180; 56; 148; 81]);
   (25318, [52; 244; 116; 7; 25; 155; 32; 56; 96; 91]);
   (25319, [244; 52; 20; 148; 91])].
Definition pos_chars_8 : list (char * list N) :=
  [(25320, [244; 52; 116; 15; 91; 153; 143; 25; 120; 7; 17; 32]);
   (25321, [116; 244; 153; 52; 84; 143; 120; 7; 155; 91; 15; 56; 25; 20; 89; 30; 32]);
   (25324, [116; 244; 25; 91; 153; 64; 160; 92; 143]);
   (25325, [246; 116; 15; 52]);
   (25326, [0; 25; 52]);
   (25327, [52; 91; 246; 155]);
   (25329, [244; 52; 25; 155; 30; 116; 153; 89; 91; 20; 96; 31; 4; 143]);
   (25331, [25; 89; 217; 86; 116; 143; 91; 79; 15; 244; 96; 52; 153; 148]);
   (25332, [244; 91; 25; 155; 89; 52]);
   (25334, [205; 116]);
   (25335, [246; 52; 25; 56; 180; 32]);
   (25340, [52; 244; 7; 116; 25; 20; 153; 143; 56; 15; 91; 89; 32; 155]);
   (25341, [244; 84; 91]);
   (25342, [116; 244; 52; 79; 20; 15; 143; 91; 24; 84; 214; 25; 155]);
   (25343, [244; 52; 158; 116; 25; 0; 20; 160; 153; 91; 143; 159; 155; 89; 94; 120; 148; 30; 93; 15; 27; 29; 92]);
   (25345, [116; 52; 53; 244; 25; 153; 91; 0; 143; 64; 89; 155; 120; 15; 43; 132; 79; 20; 148]);
   (25346, [244; 52; 116; 25; 89; 143; 79; 32; 120; 88; 148; 91; 160; 153; 20; 150; 4; 180; 22; 15; 96]);
   (25351, [25; 52; 244; 89; 56; 81; 153; 116; 96; 160; 148; 143; 15; 79; 158; 20; 180; 91; 155; 7; 159; 32; 120; 84]);
   (25352, [205; 116; 143]);
   (25353, [226; 34; 52; 7; 15; 25; 89; 56; 20; 155; 91; 153; 4; 148; 79]);
   (25358, [244; 25]);
   (25361, [56; 52; 244; 25; 143; 15; 148; 64; 20; 116; 180; 190; 155; 62; 89; 126; 0]);
   (25366, [244; 52; 25; 116; 15; 91; 32; 20; 153]);
   (25370, [64; 194; 25; 91; 155; 0]);
   (25371, [120; 153; 52; 116; 89]);
   (25373, [94; 251; 160; 158; 159]);
   (25374, [116; 205; 143; 52; 155]);
   (25375, [244; 52; 116; 15; 120]);
   (25376, [244; 116; 79; 52; 89; 25; 143; 30; 84]);
   (25377, [244; 116; 52; 89; 25; 79; 148; 153; 56; 15]);
   (25378, [205]);
   (25379, [52; 244; 116; 143; 91]);
   (25380, [244; 52; 116; 64; 56; 15; 143; 20; 32; 25; 120; 190; 62]);
   (25381, [116; 244; 52; 153; 89; 25; 91; 15; 20; 79; 143; 155; 159; 84; 148; 160; 56]);
   (25384, [244; 52; 7; 143; 15; 64; 91; 135; 20; 190; 126]);
   (25386, [30; 244; 52; 116; 25; 31; 209; 32; 155; 143; 148]);
   (25387, [116; 244; 25; 52; 79; 84; 20]);
   (25391, [52; 244; 155; 89; 116; 25; 56; 91; 64; 153; 84; 79; 15; 143; 27; 32; 246; 148; 160; 20; 30; 156; 158]);
   (25394, [116; 251]);
   (25401, [25; 205; 52]);
   (25402, [199; 52; 244; 91; 64; 0; 126; 15; 190; 155; 148; 116; 62; 79; 25; 92; 143]);
   (25405, [52; 244; 25; 143; 155; 160]);
   (25410, [244; 52; 155]);
   (25411, [205]);
   (25413, [244; 52; 20]);
   (25414, [244; 52; 86; 4; 116; 25; 153; 96; 214]);
   (25417, [244; 116; 52; 143; 15; 20; 56; 158]);
   (25419, [244; 52; 143]);
   (25420, [214; 22; 91; 150; 86]);
   (25421, [52; 25]);
   (25422, [244; 52; 7]);
   (25423, [244; 52; 116; 20; 64; 190; 126; 143; 148; 32; 15]);
   (25424, [52; 244; 25; 143; 120; 89; 20; 153; 116; 79]);
   (25429, [116; 52; 244; 25; 89; 15; 153; 56; 32; 120; 148]);
   (25438, [244; 116; 52; 143; 158; 120; 153; 20; 89; 25; 30]);
   (25439, [25; 52; 120; 116; 246; 248; 89; 56; 153; 15; 79; 91; 180; 148; 84; 64; 155; 143]);
   (25441, [244; 52; 116; 20]);
   (25442, [116; 244; 52; 32; 6; 148; 143; 29; 153; 120; 56; 25; 79; 160; 155; 91; 145; 84]);
   (25443, [52; 244; 116; 25; 180; 143]);
   (25447, [244; 116; 52; 91; 143; 20; 56; 155; 120]);
   (25449, [116; 205; 153]);
   (25453, [143]);
   (25454, [89; 98; 226; 52; 116; 153; 7; 25; 158; 84; 15; 64; 120; 148; 79; 143; 180; 155]);
   (25462, [244; 52; 15; 143]);
   (25463, [30; 64; 209; 91; 89; 155; 25; 116; 126; 32; 96; 84; 15; 158; 153; 71; 157; 184; 148; 79; 27; 143; 52; 31; 29; 93; 92]);
   (25466, [143; 217; 244; 116]);
   (25467, [244; 25; 89; 52; 153]);
   (25472, [52; 244; 15]);
   (25474, [244; 52; 180; 15]);
   (25479, [116; 205]);
   (25480, [89; 52; 246; 116; 91; 148; 25; 56; 143; 4; 155; 120; 153; 15; 32; 132; 84; 159]);
   (25481, [244; 116; 52; 15; 148; 79; 20]);
   (25482, [205]);
   (25484, [52; 25; 217; 89; 244; 116; 17; 27; 79; 4; 155; 153; 91; 56; 143; 96; 148; 15; 84; 20]);
   (25486, [15; 205]);
   (25487, [52; 244; 91]);
   (25488, [244; 52; 15; 148]);
   (25490, [52; 116; 25; 244; 120; 86; 56; 89; 32; 106; 71; 214; 15; 148; 145; 20; 143; 81; 43; 153; 95; 91; 30; 159; 17; 180; 158; 0]);
   (25494, [244; 94; 116; 30; 158; 120]);
   (25496, [116; 244; 52; 153; 25; 155; 143; 120; 160]);
   (25504, [52; 244; 116; 153; 25; 84; 56; 120; 143; 148; 7; 4; 15]);
   (25506, [52; 244; 25; 116; 56; 120; 27; 89; 153; 15; 91; 143; 155; 148; 32; 20; 43]);
   (25507, [244; 52; 79; 148; 56; 116]);
   (25509, [52; 65; 244; 116; 6; 68; 25; 7; 134; 153; 20; 89; 143; 15; 120; 56; 148; 79; 17; 91; 32; 160; 155; 4; 132; 145; 84]);
   (25511, [52; 120; 116; 244; 25; 81; 56; 68; 89; 153; 160; 32; 96; 20; 159; 17]);
   (25512, [52; 244; 25; 56; 120; 15; 116; 153; 84; 143; 91; 148; 32; 160; 68; 180; 20; 79]);
   (25513, [52; 244; 116; 25; 56; 15; 180; 143; 160; 79; 20; 120; 84; 155]);
   (25514, [25; 89; 79; 116; 52; 15; 246; 56; 91; 29; 155; 30; 153; 20; 27]);
   (25516, [244; 79; 84; 155]);
   (25517, [244]);
   (25518, [25]);
   (25520, [244; 52; 155; 116]);
   (25523, [246; 52]);
   (25524, [244]);
   (25527, [244; 116; 79; 25; 143; 15; 52]);
   (25528, [244; 30; 153; 25]);
   (25530, [52; 244; 25; 32; 20]);
   (25534, [205]);
   (25540, [116; 205]);
   (25542, [205; 91]);
   (25545, [244; 52; 143; 91]);
   (25549, [244; 116]);
   (25550, [244; 15]);
   (25551, [52; 116; 89; 244; 153; 143; 25; 91; 56; 15]);
   (25552, [52; 244; 89; 25; 153; 56; 116; 91; 155; 68; 143; 15; 94; 158; 148; 84; 4; 79; 93; 29; 157; 30; 132; 96; 20; 159; 120; 32; 160; 7; 145]);
   (25554, [244; 52; 25; 116; 15; 143; 56; 89; 148; 32; 153; 20; 7; 30]);
   (25558, [246; 155; 116; 91; 79; 52]);
   (25568, [15]);
   (25569, [116; 244; 52; 84; 32; 79; 15; 153; 25; 155]);
   (25571, [244; 52; 116; 91]);
   (25577, [244; 52; 91]);
   (25578, [244; 0; 52; 15]);
   (25581, [52; 244; 120; 116; 25; 30; 15; 20; 27; 79; 29; 143]);
   (25586, [205]);
   (25588, [116; 56; 246; 120; 52; 25; 89; 155; 145; 153; 79; 91; 160; 92; 84; 143; 81; 7]);
   (25590, [52]);
   (25597, [244; 148; 116; 52; 84; 79; 91; 143; 160; 155; 163]);
   (25600, [244; 52; 91]);
   (25601, [244; 116; 52; 32; 91]);
   (25602, [244; 52; 116; 25]);
   (25605, [244; 52; 116; 25; 143; 91; 56]);
   (25611, [244]);
   (25615, [52; 246; 116; 89; 218; 56; 153; 91; 160; 148; 84; 79; 155]);
   (25616, [116; 205; 52]);
   (25619, [244; 116; 52; 25; 32; 15]);
   (25620, [244; 52; 143; 15; 153]);
   (25627, [244]);
   (25628, [52; 244; 56; 32; 25; 15; 155; 148; 84; 31]);
   (25630, [244; 52; 116; 0; 64; 25; 20]);
   (25632, [244; 91; 155]);
   (25633, [116; 244; 180; 91]);
   (25638, [205; 116]);
   (25642, [25; 52; 244; 116]);
   (25644, [244; 52; 116; 56; 25; 143; 15; 20; 91]);
   (25645, [244; 52; 116; 25; 56; 153; 148; 190; 126; 20; 91; 143]);
   (25652, [205]);
   (25658, [52; 244; 132; 25; 116; 143; 68; 32; 20; 91; 153; 15; 148; 155]);
   (25661, [244; 52; 15; 91; 155]);
   (25663, [205]);
   (25665, [244]);
   (25668, [52; 25; 246; 116; 22; 150; 4; 35; 153; 143; 159; 92; 15; 32; 56]);
   (25669, [205]);
   (25670, [52; 244; 116; 25; 148; 89; 180; 79; 20; 143; 56; 4; 120; 160; 153]);
   (25671, [52; 244; 180; 116; 155; 25; 15; 143; 62; 190; 91; 79; 68; 20; 65; 148; 84; 120; 32; 56; 132; 153]);
   (25672, [52; 246]);
   (25674, [25; 217; 244; 52; 86; 89; 116; 120; 153; 42; 180; 84; 91; 214]);
   (25682, [52; 246; 20]);
   (25684, [244; 52; 89; 56; 84; 25]);
   (25688, [244; 52; 25; 116; 89; 56; 20; 143; 120; 91; 153]);
   (25694, [86; 244; 227]);
   (25703, [52; 246; 79; 56; 15; 25; 143; 91]);
   (25705, [32; 209; 25; 155; 52; 116; 30; 56; 29; 94; 91; 93; 158; 15; 0; 96; 27; 160; 153; 148; 244; 120; 17; 62; 159; 88; 157; 31; 143]);
   (25709, [205; 91]);
   (25720, [244; 116; 52; 25; 143; 20; 71; 79; 148; 91; 153; 190; 160; 62; 84; 132; 15; 120]);
   (25721, [244; 116; 52; 25; 91; 155]);
   (25722, [244; 52; 25]);
   (25730, [244; 52; 91]);
   (25732, [205; 155]);
   (25733, [244; 217; 126; 190]);
   (25735, [52; 244; 217; 86; 153; 227; 84; 148]);
   (25745, [116; 244; 52; 153; 25; 89; 91; 160; 20; 120]);
   (25746, [244; 52; 158; 25; 30; 94; 29; 116; 32; 93; 20; 91; 7; 155; 89; 153; 27; 15; 143; 157]);
   (25749, [244; 52; 20; 96]);
   (25750, [205]);
   (25753, [52]);
   (25758, [244; 52; 116; 120; 190; 126; 64; 79; 56; 153; 25; 143; 89; 84; 91]);
   (25764, [52; 244; 116; 56; 91; 32]);
   (25769, [244; 52; 0]);
   (25772, [244; 52; 25]);
   (25773, [120; 52; 244; 116; 153; 25; 159; 30; 93; 89; 84; 56; 91; 96; 132; 160; 143]);
   (25774, [244; 227; 52; 86; 25; 56; 150; 155]);
   (25776, [246; 52; 116; 25; 91; 153]);
   (25781, [244; 52]);
   (25783, [246; 52; 116]);
   (25784, [25]);
   (25786, [52]);
   (25788, [116; 244; 52; 143; 153; 15; 20; 155; 148; 91]);
   (25792, [244; 25; 91; 160]);
   (25794, [52; 244; 79; 25; 180; 116; 15; 30]);
   (25797, [246; 52; 7; 116; 15]);
   (25805, [52; 244; 91; 25; 89; 27; 20; 153; 84; 15; 148; 116; 143; 217; 120; 155; 159; 0; 56]);
   (25806, [89; 91; 244; 52; 155; 25; 153; 143]);
   (25808, [205]);
   (25810, [244; 116; 52; 91; 143; 155; 20; 79; 15; 148; 32; 25]);
   (25816, [205; 89; 52]);
   (25822, [251; 79; 143; 116]);
   (25826, [205; 52; 116; 91; 15]);
   (25828, [244]);
   (25830, [244; 116; 120; 52; 153; 20; 25; 143; 84; 148; 89; 15; 32]);
   (25856, [52; 244; 30; 91; 155; 116; 25; 79; 15; 56; 148; 20; 31]);
   (25865, [244]);
   (25874, [244; 116; 148; 52; 25; 91; 143]);
   (25880, [246; 143; 79; 155; 20; 116; 126; 52]);
   (25893, [244]);
   (25899, [52]);
   (25902, [244; 25]);
   (25903, [52; 25; 86; 89; 227; 56; 116; 153; 214; 27; 158; 145; 143; 91; 96; 15; 180; 155; 32; 17; 94; 120; 79; 102; 81; 20; 148; 84; 62]);
   (25910, [25; 52; 116; 244; 153; 89; 56; 120; 143; 15; 148; 91; 84; 145; 81; 32; 79; 20; 155; 160; 17; 132; 43]);
   (25912, [52; 143; 30; 148]);
   (25913, [52; 56; 244; 116; 25; 148; 81; 155; 15; 7; 17; 91; 153; 143; 120; 79; 160; 32; 84; 145; 159; 30; 20]);
   (25915, [52; 116; 244; 120; 25; 56; 153; 91; 143; 15; 155; 79; 20; 148; 32]);
   (25918, [52; 116; 244; 153; 25; 159; 160; 84; 91; 7; 171; 143; 20; 28; 0; 56; 79; 126; 64; 15; 148; 155; 132; 68; 158; 120; 17; 92; 96; 180; 94; 184; 32; 89; 30; 145]);
   (25919, [25; 89; 153; 159; 116; 91; 218; 148; 155; 17; 52; 20; 81; 145; 32; 160; 79; 158; 120; 132; 30; 149; 31; 92; 84; 56; 143; 93; 95; 180; 15; 156]);
   (25925, [198; 25; 89; 7; 116; 30; 79; 71; 52; 6; 217; 143; 158; 15; 32; 20; 153; 84; 155; 132; 64; 148]);
   (25928, [25; 64; 89; 116; 153; 52; 68; 218; 79; 148; 155; 91; 143; 84; 81; 160; 120; 180; 96; 94]);
   (25929, [205; 155]);
   (25932, [25; 218; 116; 89; 0; 79; 42; 143; 120; 52; 20; 91; 148; 153; 246; 159; 84; 160; 15]);
   (25935, [91; 0; 194; 64; 155; 153; 116; 25; 94; 158; 68; 96; 120; 148; 89; 84; 79; 92; 160]);
   (25937, [244; 116; 52; 56; 25; 143; 120; 20; 153; 148; 15; 160; 79; 155; 89; 158; 145; 31; 4]);
   (25941, [218; 25; 246; 91; 30]);
   (25942, [27; 219; 91; 25; 155; 159; 30; 246; 32]);
   (25945, [25; 56; 96; 89; 244; 116; 153; 148; 52; 81; 159; 91; 155; 120; 17; 143; 79; 145; 84; 95; 158; 43; 20; 31; 160; 4; 132; 15; 29; 156]);
   (25947, [116; 246; 52; 120; 79; 64; 155; 15; 91]);
   (25949, [230; 64; 42; 79; 25; 38; 15; 143; 148]);
   (25950, [244; 64; 52; 4; 0; 148; 91; 25; 155; 92]);
   (25954, [71; 244; 25; 64; 52; 116; 148; 7; 15; 143; 91; 155; 20; 153; 180]);
   (25955, [116; 244; 52; 25; 64; 153; 79; 120; 0; 89; 143; 91; 4; 155; 84; 56; 81; 15; 180; 190; 126; 157; 148; 217; 160; 132; 156]);
   (25958, [94; 30; 91; 52; 159; 219; 25; 155; 89; 209; 158; 0; 156; 31; 93; 143; 62; 56; 190; 29; 194]);
   (25963, [205]);
   (25964, [52; 116; 155; 244; 27; 64; 91; 25; 190; 126; 79; 15; 56; 143; 20; 84; 148; 158; 92]);
   (25968, [89; 25; 86; 22; 214; 153; 150; 84; 116; 71; 148; 79; 17; 52; 96; 64; 20; 180; 56; 91; 15; 143; 155; 159; 43; 4; 29; 160; 32]);
   (25970, [244; 52; 116; 25; 15; 20; 143; 32; 84; 148; 79]);
   (25972, [120; 25; 4; 52; 64; 7; 116; 56; 22; 214; 0; 71; 244; 150; 153; 190; 62; 20; 32; 143; 86; 15; 126; 171; 91; 155; 84; 89; 160; 148; 159]);
   (25975, [244; 52; 116; 143; 91; 15; 25; 155; 32; 153; 56]);
   (25991, [25; 89; 155; 218; 153; 91; 27; 96; 32; 20; 116; 148; 102; 86; 17; 159; 30; 160; 143; 31; 158; 157; 42; 15; 107; 0; 156; 64; 94; 29; 93; 92; 180; 79; 62; 28; 81; 99; 214; 184; 52; 145; 120; 43; 132; 56; 190]);
   (25995, [218; 91; 52; 116; 89; 25; 96; 160; 155; 43; 171; 94; 30; 27; 148]);
   (25996, [91; 219; 155; 92]);
   (26000, [209; 155; 91; 30; 62; 29; 157]);
   (26001, [25; 89; 217; 62; 153; 126; 84; 148; 143; 190; 155; 79; 160; 30; 15]);
   (26003, [251; 126; 79; 84; 91; 155]);
   (26007, [56; 120; 244; 153; 116; 89; 25; 148; 86; 52; 91; 79; 160; 143; 7; 155; 30; 15; 32; 64; 84; 96; 158; 214; 92; 180; 132]);
   (26009, [89; 217; 116; 84; 52; 153; 148; 79; 71; 96; 120; 143; 25; 244; 91; 68; 15; 159; 94; 62; 160; 132; 158]);
   (26011, [227; 91; 89; 27]);
   (26012, [244; 116; 25; 52; 89; 190; 126; 153; 192; 12; 148; 4; 155; 32; 158; 15; 71; 96]);
   (26015, [52; 244; 143; 91; 155]);
   (26017, [158; 52; 160; 56]);
   (26020, [86; 227; 99; 214; 143; 25; 15; 153; 89; 88; 148; 156]);
   (26021, [116; 52; 246; 120; 143; 25; 153; 20; 148]);
   (26023, [218; 25; 89; 96; 153; 79; 91; 143; 56]);
   (26025, [244; 52; 15; 116; 143; 148; 68; 153; 96]);
   (26027, [246; 155; 91]);
   (26029, [71; 116; 244; 52; 25; 79; 153; 89; 7; 64; 143; 15; 84; 120; 158; 148; 65; 56; 4; 94; 91; 132; 20; 32; 180; 155]);
   (26031, [91; 158; 94; 155; 27; 160; 93; 157; 89; 96; 30; 219; 230; 153; 159; 29; 231; 25; 209; 156; 32; 0; 31; 143; 218; 15; 180; 84; 95; 148]);
   (26032, [192; 25; 116; 30; 71; 4; 52; 64; 32; 0; 31; 155; 153; 68; 91; 160; 29; 96; 120; 158; 94; 27; 15; 79; 43; 7; 89; 81; 143; 56; 171; 20; 159; 84; 17; 145; 156; 148; 92; 157; 93; 132; 126; 28]);
   (26041, [25; 89; 227; 76; 106; 163; 134; 150; 86; 27; 153; 0; 155; 102; 148; 152; 7; 91; 99; 71; 143; 43; 159; 64; 79; 32; 116; 96; 160; 68; 81; 158; 30; 15; 190; 214; 94; 126; 132; 84; 180; 28; 20; 156; 135; 62; 157; 88; 95; 120; 92; 31; 29]);
   (26044, [219; 27; 202; 155; 91; 143]);
   (26045, [89; 116; 52; 56; 27; 244; 155; 25; 91; 79; 29; 143; 94; 84; 158; 28; 30; 153; 93; 31; 120; 180; 32; 157; 160; 148; 96; 15]);
   (26049, [12; 204; 76; 106; 38; 52; 25; 143; 30; 15; 148; 91; 89; 153; 158; 81; 20; 56]);
   (26051, [205; 153; 25; 91]);
   (26052, [205; 143])].
Definition pos_chars_9 : list (char * list N) :=
  [(26053, [56; 25; 217; 52; 89; 81; 30; 159; 32; 160; 91; 17; 153; 31; 116; 96; 95; 155]);
   (26054, [205; 91]);
   (26059, [52; 25; 199; 116; 89; 153; 7; 120; 91; 143; 4; 155; 132; 32; 158; 20; 15]);
   (26060, [25; 148; 30; 52; 89; 29; 15]);
   (26062, [251; 64; 79; 148]);
   (26063, [89; 96; 218; 158; 153; 25; 102; 91; 227; 160; 148; 159; 116; 81; 180; 155; 132; 184; 79; 84]);
   (26066, [205; 89]);
   (26070, [0; 143; 20]);
   (26071, [25; 89; 217; 91; 94; 159; 143; 155; 15; 158; 116; 148; 153; 120; 160; 96; 95; 29; 84]);
   (26080, [244; 52; 7; 143; 25; 6; 15; 116; 4; 20; 0; 148; 22; 62; 30; 32; 43; 155; 27; 56; 68; 153; 91; 160; 84; 81; 71; 79; 1; 17; 132; 159; 150; 31; 3; 156]);
   (26082, [198; 6; 4; 143; 15; 25; 43; 91; 155; 20]);
   (26085, [214; 107; 30; 25; 209; 89; 86; 7; 43; 102; 160; 17; 4; 120; 71; 31; 52; 93; 143; 153; 148; 79; 158; 96; 68; 150; 15; 155; 27; 116; 84; 32; 22; 29; 91; 159; 20; 94; 157; 92; 35; 99; 0; 62; 156; 81; 171; 145; 56; 180; 132]);
   (26086, [71; 107; 89; 91; 159; 94; 209; 79; 218; 143; 227; 171; 96; 43; 153; 155; 25; 158; 81; 246; 116; 148]);
   (26087, [192; 25; 126; 71; 43; 64; 116; 89; 30; 4; 153; 94; 68; 81; 79; 148; 91; 143; 120; 15; 84; 158; 20; 29; 52; 145; 155]);
   (26088, [218; 89; 52; 25; 116; 91; 155; 153; 79]);
   (26089, [192; 43; 7; 71; 25; 107; 52; 12; 116; 84; 91; 148; 64; 143; 166; 15; 155; 31; 17; 89; 20; 135; 159; 56; 32; 160; 0; 27; 29; 96]);
   (26092, [107; 227; 86; 25; 218; 81; 30; 91; 150; 155]);
   (26093, [91; 155; 219; 156; 29; 25; 20; 30; 92; 15; 27]);
   (26094, [25; 155]);
   (26095, [89; 251; 91]);
   (26096, [205; 143]);
   (26097, [64; 25; 192; 89; 153; 56; 120; 116; 20; 17; 43; 171; 180; 91; 84; 155; 148]);
   (26102, [25; 218; 70; 107; 102; 71; 89; 68; 65; 7; 153; 148; 166; 116; 135; 155; 94; 52; 143; 64; 171; 27; 20; 28; 79; 86; 0; 91; 132; 160; 84; 43; 88; 15; 159; 99; 81; 93; 92; 62; 190; 31; 180; 32; 120; 30; 29; 4; 150; 158; 156]);
   (26103, [192; 27; 25; 64; 91; 219; 15; 143; 155; 4; 0; 7; 52; 190; 126; 79; 148]);
   (26106, [192; 0; 25; 91; 64; 158; 155; 27; 52; 148; 94; 29; 84; 79; 93; 89; 145; 92; 30]);
   (26112, [91; 205; 155]);
   (26114, [0; 244; 91; 64; 94; 52; 79; 155; 27; 190; 126; 93; 29; 89; 246; 143; 96; 20; 160; 15; 157; 62; 30; 158; 31; 92]);
   (26115, [205; 79]);
   (26118, [30; 25; 209; 91; 155; 158; 160; 17; 31; 29; 27; 92; 81; 94; 159; 32; 148]);
   (26122, [219; 91; 155; 30; 32; 96; 92]);
   (26124, [94; 91; 155; 27; 30; 158; 209; 93; 219; 148; 160; 32; 153; 0; 92; 96; 29; 143; 25; 159; 79; 31]);
   (26126, [116; 43; 0; 52; 89; 91; 192; 64; 1; 27; 25; 155; 199; 153; 71; 94; 96; 158; 7; 107; 143; 92; 79; 15; 20; 62; 30; 32; 84; 148; 190; 126; 171; 194; 159; 17; 56; 160; 93; 180; 29; 135; 157; 145; 132; 65; 120; 28; 4; 184; 99; 31; 156]);
   (26127, [107; 52; 244; 0; 62; 116; 143; 20; 56; 190; 25; 148; 15; 236; 79; 135; 7; 155; 248; 153; 91; 192; 89]);
   (26131, [89; 120; 153; 64; 192; 27; 159; 71; 84; 52; 143; 25; 91; 79; 0; 96; 155; 158; 93; 30; 157; 32; 160; 148; 68; 171; 116; 15; 20; 28; 56; 31; 4; 29; 156; 94]);
   (26132, [43; 236; 107; 155; 143; 91; 89; 79; 30; 71]);
   (26133, [91; 205; 155]);
   (26137, [15; 25]);
   (26141, [219; 27]);
   (26143, [89; 25; 217; 91; 96; 43; 153; 155; 132; 64; 32; 15; 27; 143; 71; 158; 159; 4; 148; 116; 52; 30; 84; 79; 68; 20; 88; 171; 190; 126; 160; 94; 81; 150; 86; 156; 29; 95; 152; 92]);
   (26144, [116; 244; 52; 153; 27; 25; 79; 91; 20; 155; 143; 120; 96]);
   (26149, [236; 25; 43; 91; 155; 94; 89; 27; 107; 158; 171; 120; 143; 116; 92; 32; 153; 15; 52; 81; 17; 20; 84; 160; 148; 96; 159; 79; 56; 30; 29; 145; 93; 31; 132; 156]);
   (26151, [64; 244; 89; 143; 4; 79; 153; 91]);
   (26152, [43; 236; 91; 155]);
   (26157, [246; 91; 155; 29; 52; 158; 30; 32; 143; 25; 126; 62; 15; 0; 194; 157; 148]);
   (26159, [244; 70; 89; 71; 116; 52; 148; 84; 20; 102; 6; 134; 25; 79; 143; 43; 15; 96; 155; 81; 153; 38; 156; 180]);
   (26161, [91; 205; 155]);
   (26164, [205; 91]);
   (26165, [246; 116; 64; 25; 91]);
   (26166, [91; 205; 155]);
   (26172, [25; 89; 218; 91; 20; 43; 15; 236]);
   (26174, [52; 64; 244; 1; 0; 25; 116; 91; 155; 15; 27; 4; 32; 153; 143; 148; 96; 20; 17; 30; 89; 180; 94; 156; 157]);
   (26177, [27; 219; 91; 155]);
   (26179, [244; 116; 190; 52; 126; 91; 143; 155; 62; 0; 64; 96; 25; 153; 7]);
   (26187, [209; 107; 27; 30; 81; 91; 52; 89; 155; 17; 43; 32; 31; 244; 29; 25; 94; 158; 56; 148; 159; 92; 143; 15]);
   (26188, [86; 43; 227; 236; 107; 150; 116; 91]);
   (26191, [27; 91; 219; 155; 52; 158; 143; 79; 93; 194; 28]);
   (26194, [244; 116; 52; 25; 153; 79; 143; 93; 155; 91; 160; 32]);
   (26195, [155; 52; 116; 27; 246; 91; 79; 107; 156; 15; 84; 148; 30; 153; 96; 89; 25; 29; 120; 92]);
   (26196, [91; 205; 155]);
   (26197, [244; 116; 52; 89; 143; 15; 64; 62; 190; 91; 153; 148; 20; 79; 25]);
   (26198, [91; 219; 89; 155; 92; 160]);
   (26199, [91; 205; 155]);
   (26202, [43; 236; 107; 25; 71; 84; 89; 102; 52; 145; 143; 96; 91; 155; 153; 171; 160; 79; 92; 148; 17]);
   (26207, [91; 205; 155]);
   (26209, [205]);
   (26212, [116; 246; 153; 158; 159; 52; 91; 155]);
   (26214, [3; 64; 0; 79; 62; 143; 116; 25; 43]);
   (26216, [107; 25; 219; 91; 96; 160; 155; 236; 43; 52; 143; 92; 15; 159]);
   (26222, [1; 0; 219; 25; 91; 27; 155; 52; 32; 153; 30; 158; 56; 93; 160; 29; 94; 89; 68; 157; 96; 159; 31; 62; 190; 35; 15; 4; 194; 20; 17; 81; 92]);
   (26223, [89; 25; 218; 27; 153; 155; 0; 91; 30; 128; 32; 116; 143; 158; 94; 148; 52; 160; 84; 79; 120; 132; 96; 95; 28; 157]);
   (26224, [64; 116; 148; 153; 205; 91; 184]);
   (26228, [244; 91; 32; 25; 0; 155; 15; 20; 116; 52; 79; 84; 30; 89; 29; 62]);
   (26230, [25; 89; 153; 219; 91; 0; 155; 190; 126; 32; 160; 93; 15; 218; 17; 81; 20; 96; 92]);
   (26231, [205; 89; 79]);
   (26234, [25; 218; 91; 89; 27; 219; 155; 64; 30; 52; 209; 153; 79; 143; 156; 116; 148; 68; 15; 4; 84; 31; 96; 56; 145; 65; 81; 132; 17; 194; 93; 92]);
   (26238, [244; 52; 155; 91; 25]);
   (26242, [7; 199; 52; 64; 4; 25; 155; 91; 56]);
   (26244, [116; 205; 91]);
   (26247, [205; 89; 71; 79; 143; 91; 148]);
   (26252, [246; 52]);
   (26257, [116; 89; 43; 194; 236; 158; 25; 107; 153; 155; 84; 91; 148; 120; 143]);
   (26262, [192; 116; 67; 25; 155; 62; 64; 0; 190; 89; 153; 52; 148; 160; 91; 4; 79; 143; 68; 30; 120; 145; 32]);
   (26263, [7; 244; 52; 25; 64; 71; 89; 0; 192; 116; 126; 143; 56; 4; 15; 155; 79; 84; 148; 153; 193; 42; 62; 91]);
   (26269, [205]);
   (26279, [0; 25; 15]);
   (26280, [198; 31; 94; 17; 27; 158; 30; 153; 91; 155]);
   (26286, [236; 25; 43; 143; 194; 89; 20; 155; 107; 79; 91; 15; 153]);
   (26292, [52; 25; 89; 64; 217; 27; 0; 56; 143; 148; 15; 153; 116; 20; 192; 91; 79; 155; 65; 193]);
   (26297, [30; 251; 91]);
   (26302, [205; 91]);
   (26329, [155; 25; 32; 158; 156]);
   (26331, [205]);
   (26332, [205; 91; 155; 96]);
   (26333, [52; 246; 32; 25; 91; 143]);
   (26342, [91; 219; 89; 155]);
   (26345, [205]);
   (26352, [246; 116; 155; 91; 70; 84; 143; 79]);
   (26354, [89; 25; 227; 116; 0; 153; 27; 30; 86; 91; 94; 143; 190; 126; 62; 148; 158; 52; 155; 160; 15; 93; 84; 64; 20; 159; 29; 214; 68; 120; 32]);
   (26355, [116; 25; 52; 153; 190; 148; 126; 32; 143]);
   (26356, [199; 7; 52; 116; 107; 20; 0; 143; 15; 155; 25; 56; 79; 6; 160; 153; 27; 91; 148; 4; 32; 93; 43]);
   (26359, [205]);
   (26361, [27; 219; 30; 155; 91; 89; 28; 94; 143; 25; 15; 102; 148; 32]);
   (26364, [91; 158; 30; 93; 194; 27; 94; 155; 153; 89; 29; 25; 157; 96; 160; 159; 128; 31; 0; 28; 64; 17; 67; 32; 143; 52]);
   (26366, [199; 7; 71; 27; 91; 25; 30; 93; 155; 143; 28; 15; 92; 29]);
   (26367, [226; 116; 52; 25; 89; 15; 56; 79; 120; 153; 84; 160; 155; 148; 244; 96; 32]);
   (26368, [199; 0; 7; 12; 43; 25; 62; 4; 52; 31; 20; 71; 159; 42; 91; 155; 17]);
   (26376, [214; 217; 25; 107; 86; 89; 43; 102; 17; 171; 155; 227; 153; 116; 160; 91; 71; 143; 79; 96; 158; 180; 27; 15; 84; 30; 152; 32; 92; 148; 93; 88; 159; 120; 20; 94]);
   (26377, [244; 116; 38; 52; 0; 68; 25; 56; 7; 153; 20; 120; 70; 4; 143; 148; 155; 15; 79; 71; 27; 64; 22; 159; 180; 91; 84; 156; 132; 96; 134; 32; 171; 184; 160; 150; 17; 92; 81]);
   (26378, [205]);
   (26379, [25; 153; 218; 148; 89; 91; 143; 155; 180; 15; 79; 32]);
   (26381, [56; 89; 116; 25; 52; 244; 64; 153; 120; 148; 91; 86; 79; 143; 84; 190; 155; 96; 126; 0; 81; 62; 27; 160; 159; 214; 15; 43]);
   (26384, [205; 94; 158]);
   (26388, [209; 25; 143; 94; 43; 91; 30; 92; 155; 158; 96; 107; 32; 64]);
   (26389, [205; 91; 25; 155]);
   (26391, [91; 64; 94; 219; 155; 158; 52; 157; 29; 160; 89; 126; 62; 184; 93; 79; 148; 86; 153; 143; 30; 96; 92; 0; 15; 194; 159; 25; 56; 190; 84; 32]);
   (26395, [116; 244; 89; 64; 52; 27; 25; 91; 153; 143; 15; 120; 79; 155; 30; 96; 84; 107; 68; 148; 20; 32; 94; 93; 158; 157; 159; 160; 156; 43]);
   (26397, [226; 107; 25; 89; 30; 155; 91; 52; 34; 32; 143; 116; 158; 15; 88; 84; 31; 81; 17; 153; 148; 160; 27; 156; 56; 159; 79; 29; 94]);
   (26399, [89; 76; 120; 107; 25; 71; 68; 12; 227; 116; 52; 81; 86; 153; 148; 171; 102; 214; 43; 159; 91; 17; 143; 96; 180; 79; 4; 56; 160; 155; 15; 88]);
   (26406, [0; 62; 190; 126; 25; 155; 91]);
   (26408, [25; 89; 217; 158; 27; 91; 155; 153; 94; 218; 116; 4; 143; 192; 148; 79; 96; 62; 15; 30; 93; 20; 0; 156; 32; 160; 29; 64; 159; 81; 157; 190; 68; 120; 84; 95]);
   (26410, [199; 43; 71; 52; 7; 143; 25; 148; 15; 91; 155; 153; 56; 30; 29; 20; 86; 157; 32; 156; 150; 96; 4]);
   (26411, [204; 107; 25; 70; 89; 12; 155; 91; 171; 43; 143; 157; 94; 153; 79; 148; 76; 64; 7; 20; 102; 158; 84]);
   (26412, [89; 38; 64; 230; 94; 153; 25; 43; 7; 84; 135; 158; 71; 86; 159; 148; 155; 68; 116; 91; 143; 102; 32; 34; 184; 27; 30; 214; 15; 52; 29; 93; 160; 79; 17; 156; 20; 132; 4; 92; 120; 157; 62; 190; 96; 88; 0]);
   (26413, [227; 218; 89; 25; 155; 30; 91; 29]);
   (26415, [89; 153; 244; 116; 218; 25; 159; 91; 84; 43; 148; 155; 158; 81; 79; 143; 68; 180; 160; 132]);
   (26417, [27; 219; 25; 91; 155; 28; 4; 29; 30; 143; 15; 31; 153; 89; 158; 32]);
   (26420, [64; 0; 27; 25; 219; 91; 89; 155; 15; 143; 29; 148; 126; 62; 190; 79; 28; 156; 92; 67]);
   (26421, [89; 86; 227; 91; 214; 94; 99; 35; 150; 148; 155; 25; 153; 29; 84; 32; 52]);
   (26426, [25; 89; 218; 153; 71; 68; 0; 120; 116; 4; 148; 143; 52; 84; 96; 56; 91; 42; 160; 158; 79; 102; 132; 159; 20; 81; 15; 31; 155; 93; 180; 32; 17; 145; 86; 1; 30]);
   (26429, [64; 126; 244; 89; 52; 27; 79; 148; 153; 116; 248; 15; 143]);
   (26432, [244; 52; 116; 25; 120; 15; 56; 143; 89; 153; 20; 32; 148; 79; 64; 160; 155; 96; 180; 30; 158; 84]);
   (26434, [64; 25; 244; 116; 192; 153; 56; 79; 0; 52; 15; 180; 143; 126; 68; 20; 148; 190; 120; 89; 84; 159; 96; 62; 65; 81; 155; 30; 32]);
   (26435, [89; 25; 217; 116; 153; 27; 91; 148; 81; 52; 155; 92; 143; 84; 7; 120; 160; 15; 159; 96; 85; 94; 158; 17; 71; 32; 20; 79; 145; 93; 43; 0]);
   (26438, [89; 25; 227; 86; 148; 153; 94; 32; 155; 96; 91; 68; 132; 214; 116]);
   (26440, [89; 217; 116]);
   (26441, [89; 218; 91; 158; 25; 96; 32; 153; 27; 159; 31; 155; 30; 29; 93]);
   (26444, [205; 25]);
   (26446, [27; 219; 28; 89; 91; 155; 25; 153; 30; 94; 143; 32; 79; 158; 31; 84; 15; 29]);
   (26447, [218; 25; 91; 89; 155; 30; 153; 4; 143; 96; 20]);
   (26448, [89; 25; 153; 217; 116; 91; 218; 148; 160; 96; 79; 143; 155; 84; 95; 159; 81; 32]);
   (26449, [25; 89; 217; 91; 94; 102; 42; 17; 4; 96; 155; 153; 93; 116; 30; 158; 20; 27; 56; 92; 84; 157; 148; 120; 159; 52; 160]);
   (26451, [205; 155; 91]);
   (26454, [89; 218; 155; 91; 116; 79; 158; 20]);
   (26460, [27; 25; 219; 52; 155; 91; 157; 30; 32; 160; 29; 246; 28; 159; 158; 31; 143; 93; 15; 20]);
   (26462, [30; 89; 153; 15; 25; 91; 31]);
   (26463, [116; 120; 89; 244; 52; 86; 153; 227; 15; 56; 27; 64; 25; 79; 68; 91; 155; 29; 214; 20; 148; 32]);
   (26464, [25; 89; 244; 116; 91; 94; 155]);
   (26465, [25; 86; 227; 89; 214; 88; 153; 64; 148; 135; 143; 20; 84; 102; 158; 190; 126; 116; 79; 71; 155; 93; 52; 160; 68; 91; 15; 94; 96; 30; 17; 180; 32; 159; 22]);
   (26469, [116; 244; 107; 52; 71; 76; 45; 25; 135; 84; 120; 70; 91; 43; 79; 94; 158; 143; 153; 148; 68; 93; 155; 89; 134; 27; 15; 180; 30; 190; 62; 160; 60; 96; 0; 20; 32; 92; 145; 29; 159; 56; 132; 64]);
   (26472, [27; 219; 91; 25; 89; 28; 155; 30; 153; 96; 158; 32; 94; 143; 79; 160; 92; 29; 20]);
   (26473, [251]);
   (26474, [205; 155; 91]);
   (26477, [27; 30; 209; 160; 25; 91; 94; 158; 155; 28; 31; 32; 93; 29]);
   (26479, [86; 89; 227; 25; 116; 96; 15; 153; 214; 42; 91; 64; 81; 150; 94; 148; 160; 99; 35; 79]);
   (26480, [91; 0; 155; 27; 219; 89; 25; 29; 218; 93; 30; 84; 79; 92; 143; 81; 160; 194; 157; 96]);
   (26482, [91; 219; 155]);
   (26483, [15; 194; 155; 91; 20; 52]);
   (26485, [244; 89; 25; 218; 91; 79; 155; 143]);
   (26487, [89; 251; 153; 158]);
   (26492, [205; 89; 91; 155; 79]);
   (26494, [64; 244; 89; 25; 30; 91; 0; 27; 116; 52; 155; 153; 120; 158; 93; 190; 29; 126; 32; 94; 96; 62; 31; 92; 17; 84; 132; 159; 160; 157]);
   (26495, [89; 25; 218; 153; 116; 96; 64; 91; 4; 30; 94; 143; 32; 0; 155; 148; 29; 158; 15; 160; 84; 156; 79; 81; 93; 180; 190; 126]);
   (26497, [65; 199; 7; 89; 25; 0; 153; 94; 64; 116; 45; 143; 22; 56; 52; 158; 148; 91; 79; 4; 68; 15; 159; 155; 184; 81; 180; 160; 29; 30; 17; 32; 92]);
   (26500, [89; 52; 25; 153; 246; 116; 20; 56; 218; 84; 91; 95; 155; 148; 120; 93; 184; 160]);
   (26503, [25; 30]);
   (26505, [246; 116; 143; 52; 153; 62; 91; 148; 15]);
   (26507, [205; 91; 155; 30; 89]);
   (26512, [120; 153; 116; 246; 84; 52; 148; 89; 79; 91; 155; 96; 160; 143]);
   (26517, [25; 244; 42; 89; 143; 116; 91; 155; 15; 52; 79; 218; 94; 84; 32; 20; 96; 4]);
   (26519, [89; 27; 91; 25; 218; 94; 155; 96; 158; 153; 160; 116; 42; 159; 93; 52; 30; 28; 81; 145; 84; 92; 29; 79; 32; 157; 12; 148; 17; 143; 95; 20; 31; 180; 132; 156]);
   (26520, [205]);
   (26522, [214; 86; 227; 153; 143; 91; 116; 92; 155; 32]);
   (26524, [70; 89; 7; 25; 218; 134; 153; 0; 94; 116; 91; 96; 79; 155; 158; 1; 15; 6; 27; 148; 143; 17; 81; 30; 29; 159; 4; 160; 145; 32; 93; 157; 52; 84; 171; 92]);
   (26525, [89; 227; 25; 86; 143; 91; 158; 153; 155; 30; 79; 15; 116; 214; 148; 218; 209; 62; 190; 84; 159; 68]);
   (26526, [30; 25]);
   (26530, [25; 89; 153; 148; 84; 32; 20; 160; 143]);
   (26531, [89; 217; 25; 30; 4; 29; 153; 155; 79; 94]);
   (26533, [205; 79; 91; 30; 116]);
   (26535, [205; 155]);
   (26536, [205]);
   (26538, [217; 89; 25; 86; 116; 84; 52; 153; 143; 91; 56; 96; 79; 15; 214; 148; 20; 32; 180]);
   (26539, [219; 91; 25; 30; 155; 218; 89; 32]);
   (26541, [25; 52; 15; 89]);
   (26543, [25; 244; 52; 0; 43; 116; 62; 143; 153; 15; 91; 20; 3; 126]);
   (26544, [218; 91]);
   (26547, [25]);
   (26549, [205]);
   (26550, [89; 227; 214; 86; 116; 25; 52; 153; 42; 56; 94; 158; 96; 148; 143; 120; 22; 150; 91; 35; 30; 180; 79; 32; 160; 132]);
   (26551, [25; 143; 89]);
   (26552, [25; 32; 155]);
   (26561, [205]);
   (26563, [251]);
   (26564, [217; 89; 91; 155; 79; 218; 96; 25]);
   (26575, [30; 27; 155; 91; 89; 158; 25; 218; 219; 94; 32; 159; 92; 93; 153; 31; 29; 96]);
   (26576, [38; 230; 91; 102; 155; 89; 157; 93]);
   (26577, [25; 218; 89; 155]);
   (26578, [214; 22; 91; 150; 86]);
   (26579, [116; 120; 25; 153; 244; 52; 89; 79; 68; 91; 96; 148; 56; 32; 160; 84; 155; 171; 132]);
   (26580, [0; 64; 244; 25; 143; 91; 155; 94; 192; 3; 29; 20; 153; 158; 62; 190; 15; 52; 160; 84; 159; 148]);
   (26584, [205; 30; 155; 158; 91]);
   (26585, [205; 91]);
   (26586, [218; 25; 89; 155]);
   (26588, [89; 25; 218; 153; 91; 79; 96; 116; 42; 4; 32]);
   (26589, [205; 155]);
   (26590, [25; 30]);
   (26592, [25; 32]);
   (26594, [205; 79]);
   (26597, [120; 52; 116; 244; 27; 153; 29; 84; 91; 155; 159; 30; 158; 148; 56; 157; 89; 160; 143; 20; 94; 25; 93; 32]);
   (26601, [89]);
   (26604, [30; 209; 89; 31; 155; 25; 91; 32]);
   (26607, [27; 32; 91; 217; 155; 89; 29; 143; 160; 96; 158; 28; 153; 219; 31; 93]);
   (26608, [205]);
   (26609, [89; 217; 91; 25; 153; 155; 32; 86; 79; 120; 158; 156; 94; 99; 143; 214; 227; 96; 92]);
   (26611, [27; 217; 25; 218; 89; 30; 155; 91; 158; 29; 28; 17; 143; 15; 153; 93; 79; 4; 20; 32; 160; 94; 31; 156; 148]);
   (26612, [25; 217; 27; 89; 30; 116; 96; 153; 79; 15; 158; 143; 159; 20; 29; 91; 155; 81]);
   (26621, [25; 251; 91]);
   (26623, [218; 25; 89; 155; 91; 30]);
   (26624, [25; 218; 155]);
   (26629, [218; 89; 25; 91; 153; 158; 155; 96]);
   (26631, [25; 89; 116; 244; 153; 52; 81; 91; 56; 0; 84; 155; 159; 15; 20; 148; 32; 132; 143; 31; 135; 120; 180; 217; 145; 4; 96]);
   (26632, [89; 25; 218; 91; 143; 116]);
   (26633, [205; 143; 52; 91; 15; 155]);
   (26634, [205; 91]);
   (26635, [86; 91; 227; 102; 214; 155; 79; 25; 143; 15; 20]);
   (26636, [251; 89; 91]);
   (26638, [218; 89; 91; 155; 25; 30]);
   (26639, [89; 25; 217; 102; 116; 153; 91; 71; 94; 158; 155; 148; 120]);
   (26641, [25; 89; 244; 155; 42; 52; 91; 94; 153; 158; 116; 143; 148; 15; 30; 20; 4; 84; 79; 93; 92; 32; 160; 120; 157; 28; 156; 171; 96]);
   (26643, [89; 25; 218; 91; 153; 116; 155]);
   (26646, [52; 246; 68; 91; 155; 148; 25; 30; 153; 94; 158]);
   (26647, [89; 27; 25; 116; 91; 219; 79; 218; 155; 158; 94; 153; 120; 143; 15]);
   (26653, [25; 251]);
   (26657, [89; 25; 218; 81; 84; 52; 153; 102; 116; 95; 91; 155; 68; 42; 56; 244; 120; 12; 32; 17; 4; 159; 160; 30]);
   (26665, [15; 143; 62; 190]);
   (26666, [86; 227; 89; 30; 84; 25; 52; 56; 214; 143; 102; 91; 155; 15; 31; 159; 79]);
   (26674, [25]);
   (26675, [89; 251]);
   (26679, [102; 109; 71; 25; 89; 86; 227; 84; 148; 180; 153; 116; 79; 91; 218; 64; 68; 155; 120; 143; 150; 214; 160; 35; 99; 237; 152; 132; 88]);
   (26680, [25; 217; 89; 116; 52; 120; 56; 153; 20; 159; 148; 91; 17; 180; 132; 68; 155; 145; 160]);
   (26681, [34; 0; 25; 86; 227; 89; 94; 96; 158; 91; 160; 214; 116; 88; 155; 143; 52; 135; 148; 153; 93; 15; 159; 79; 71; 157; 29; 180; 30; 4; 56; 120]);
   (26684, [89; 25; 65; 155; 158; 27; 116; 209; 91; 7; 217; 32; 153; 93; 30; 29; 160; 159; 94; 96; 157; 79; 52; 15; 84; 31; 143; 180; 148; 99; 64; 184; 68; 163; 17]);
   (26685, [56; 244; 52; 89; 20; 116; 25; 148; 91; 155]);
   (26686, [27; 30; 219; 155; 91]);
   (26688, [219; 91; 15; 0; 155; 25; 143]);
   (26689, [25; 4]);
   (26690, [91; 30; 27; 155; 25; 209; 219; 89; 81; 159; 218; 32; 160; 17; 153; 93; 158; 79; 156; 116; 96; 28; 180; 31; 15]);
   (26691, [89; 25; 217; 30; 153; 91; 158; 143; 155; 15; 96; 160; 148; 84; 4; 94]);
   (26692, [25; 244]);
   (26693, [218; 25; 89; 91; 155]);
   (26694, [25; 89; 244; 153; 227; 52; 96; 86; 214; 91; 160])].
Definition pos_chars_10 : list (char * list N) :=
  [(26696, [89; 25; 218; 116; 102; 153; 86; 52; 143; 159; 120; 81; 79; 148; 84; 184; 91; 214; 145; 17; 15]);
   (26697, [25; 32; 89]);
   (26698, [205]);
   (26700, [25; 42; 89; 218; 86; 116; 180; 227; 153; 30; 155; 32; 214; 96]);
   (26702, [25; 52]);
   (26704, [89; 30; 91; 25; 218; 153; 155; 81; 32; 94; 27; 158]);
   (26705, [27; 25; 158; 89; 91; 218; 219; 30; 155; 93; 143; 32; 94; 79; 29; 153; 159; 84; 28; 96; 81; 31; 157; 160; 20]);
   (26707, [27; 205; 91; 155; 116; 89; 30]);
   (26708, [25; 219; 89; 4; 91; 218; 29; 155]);
   (26709, [89; 205; 153]);
   (26720, [89; 25]);
   (26721, [25]);
   (26722, [91; 205; 107; 155]);
   (26723, [25; 217; 68; 89; 86; 227; 116; 214; 159; 150; 148; 91; 81; 132; 120; 180; 32; 218; 79]);
   (26724, [205; 25; 155]);
   (26725, [217; 89; 94; 25; 91; 116; 42; 159; 96; 158; 155; 93; 160; 30; 153; 32; 79; 156; 143; 27; 84; 92; 29; 20]);
   (26726, [219; 25; 89; 91; 30; 153; 32; 155; 29; 96]);
   (26727, [91; 205; 155; 92; 25]);
   (26728, [89; 217; 25; 116; 96; 155; 91]);
   (26729, [86; 227; 217; 89; 116; 79; 25; 91; 153; 214]);
   (26731, [25]);
   (26740, [205]);
   (26742, [227; 86; 89; 102; 214; 4; 116; 153; 29; 96]);
   (26743, [205; 153]);
   (26753, [27; 89; 217; 30; 91; 155; 94; 143; 153; 158; 28; 116; 29; 25; 79; 84; 96; 160; 93; 148; 92; 15]);
   (26755, [25]);
   (26757, [91; 27; 25; 89; 218; 155; 219; 30; 29; 32; 94; 96; 153; 143; 158; 159; 157; 93; 160; 116; 209; 84; 171; 28; 92]);
   (26758, [25; 225; 153; 190; 126; 155; 62; 91]);
   (26767, [89; 205; 116]);
   (26771, [89; 29; 92; 94; 25; 116; 91; 30; 158]);
   (26775, [244; 52; 153; 89; 25; 116; 155; 79; 81; 0; 64]);
   (26786, [218; 89; 155; 25; 91; 84; 79; 116; 148; 153]);
   (26790, [217; 25; 155; 89; 116; 52; 96; 27; 91; 143; 153; 79; 15; 148; 32; 29; 84; 93; 20; 160; 158; 159]);
   (26791, [25; 30; 64; 93; 153; 92; 158]);
   (26792, [217; 25; 89; 91; 155; 153; 160; 30; 94; 15; 32; 158; 20; 96]);
   (26797, [25; 218; 116; 91; 227; 89; 93; 29; 155; 96; 153; 32; 79; 30; 68]);
   (26799, [89; 25; 218; 153; 160; 132; 91; 155; 27; 227; 94; 148; 96; 158]);
   (26800, [89; 153; 180; 184; 148; 132; 116; 159; 84; 52; 160; 56; 120]);
   (26803, [52; 244; 25; 68; 89; 15; 32; 96; 91; 120; 155; 153; 56]);
   (26805, [32; 30; 25; 33; 153; 29; 31]);
   (26816, [56; 52; 25; 116; 244; 81; 4; 153; 159; 145; 120; 91; 155; 89; 32; 160]);
   (26818, [205; 89; 155; 91]);
   (26825, [25; 218; 89; 32; 4; 153; 94; 30; 91; 81; 116; 155; 96; 158; 160; 95; 159]);
   (26827, [25; 217; 89; 143; 116; 91; 84; 155; 52; 153; 15; 79; 159; 30; 17]);
   (26829, [218; 89; 25; 153; 84; 143; 148]);
   (26834, [192; 89; 25; 79; 153; 91; 96; 155; 52; 160; 116; 143; 64; 30; 15; 62]);
   (26837, [25; 218; 4; 89; 91; 30; 160; 153; 68; 155]);
   (26840, [218; 89; 0; 25; 20; 79; 91; 155; 153; 4; 148]);
   (26842, [89; 217; 25; 42; 91; 116; 84; 155; 94; 153]);
   (26848, [89; 92; 153; 91; 25; 94; 30]);
   (26851, [156; 89; 94; 25; 158]);
   (26862, [25; 91; 155; 219; 158; 0; 27; 93; 96; 64; 190; 126; 143; 17; 94; 62; 159; 29; 148; 157; 32; 153; 194; 160; 15; 30]);
   (26864, [244; 89; 158]);
   (26865, [218; 25; 91; 143; 153; 68; 32; 155; 15; 158; 89; 148; 116; 160; 94; 64]);
   (26869, [86; 227; 158; 214; 25; 91; 155; 148]);
   (26873, [205; 91]);
   (26874, [25; 218; 89; 155; 116; 143; 148; 32]);
   (26876, [205]);
   (26881, [205; 89; 91; 155]);
   (26885, [89; 25; 218; 153; 91; 96; 155]);
   (26891, [251; 25; 155; 91]);
   (26893, [25; 116; 153; 148; 244; 145; 52; 91; 20; 27; 155; 32; 94; 56; 158; 159; 4; 29; 120; 84; 43]);
   (26894, [148; 89; 25; 153]);
   (26896, [205]);
   (26898, [89; 218; 153; 91; 30; 155; 94; 25; 96]);
   (26911, [205]);
   (26912, [205]);
   (26916, [251; 89; 91]);
   (26925, [25]);
   (26928, [25; 218; 153; 160; 89; 91; 155; 30]);
   (26932, [25; 89]);
   (26937, [91; 251; 89; 160]);
   (26941, [218; 25; 91; 155]);
   (26943, [205; 91; 25; 155; 89; 153]);
   (26946, [89; 251; 153; 190; 126]);
   (26964, [25; 244; 20; 89; 96]);
   (26967, [205; 155]);
   (26970, [64; 27; 219; 209; 25; 30; 155; 190; 126; 91; 84; 89; 143; 15; 158; 107; 153; 29; 32; 79; 93; 94; 156; 28]);
   (26973, [153; 89; 25]);
   (26974, [158; 89; 25; 153; 94; 116; 190; 126]);
   (26976, [91; 25; 217; 155; 219; 30; 92; 29]);
   (26979, [205; 89; 91; 155]);
   (26982, [218; 89; 25; 155; 91]);
   (26987, [89; 218; 91; 155]);
   (26990, [219]);
   (26999, [25; 91; 219; 89; 218; 84; 209; 155]);
   (27000, [205; 89; 96; 25; 155]);
   (27001, [227; 91; 155; 25]);
   (27004, [25; 89; 217; 42; 116; 94; 91; 27; 160; 30; 143; 79; 12; 155; 153; 102; 92; 158; 28; 96; 20; 93; 148; 29; 95]);
   (27008, [227]);
   (27010, [25; 71; 52; 199; 89; 143; 148; 20; 218; 15; 91; 6; 17]);
   (27012, [153; 89; 205; 158; 155; 91]);
   (27014, [30; 218; 25; 91; 155; 89; 158; 94; 15; 79]);
   (27015, [205; 91; 89; 155]);
   (27016, [153; 89; 251; 158; 96; 160]);
   (27017, [89; 251; 25; 91]);
   (27021, [251]);
   (27028, [89; 25]);
   (27029, [25; 209; 218; 30; 91; 155; 32]);
   (27035, [25; 32; 92]);
   (27036, [217; 25; 116; 89; 91; 20; 143; 148; 79; 155; 15; 153; 92; 96; 93]);
   (27047, [89; 25]);
   (27048, [52; 25; 244; 116; 120; 56; 160; 68; 91; 143]);
   (27051, [25; 89; 153; 116]);
   (27053, [205; 89; 94; 158; 93; 91; 155; 79; 143]);
   (27057, [205]);
   (27060, [25; 153; 89; 91]);
   (27063, [205; 116; 91]);
   (27067, [217; 89; 116; 25; 153]);
   (27073, [205; 64; 25; 15; 91; 143]);
   (27082, [205; 91; 155; 143]);
   (27084, [218; 89; 116; 143]);
   (27086, [218; 89; 91]);
   (27088, [25; 219; 89; 91; 218; 158; 79; 155; 30]);
   (27092, [251]);
   (27099, [89; 205; 153]);
   (27103, [25; 89; 153]);
   (27104, [89; 205; 91]);
   (27117, [205]);
   (27122, [25; 32]);
   (27133, [218; 89; 25; 116; 91; 155; 153; 96; 32; 120]);
   (27135, [251; 91; 89; 155; 153]);
   (27146, [27; 30; 94; 219; 158; 25; 91; 155]);
   (27159, [205; 155; 25]);
   (27160, [227]);
   (27167, [25; 30; 89; 94; 160]);
   (27169, [89; 25; 68; 52; 218; 0; 91; 143; 84; 148; 4; 62; 190; 180; 20; 153; 71; 15; 155; 81; 56; 32; 184; 93; 116; 96]);
   (27176, [89; 91; 251]);
   (27178, [244; 52; 25; 116; 30; 64; 143; 15; 91; 7; 148; 153; 155; 32; 20; 84; 4; 0; 96; 180; 79; 27; 65; 29]);
   (27183, [218; 89; 91; 25]);
   (27185, [25; 219; 218; 30; 91; 27; 155; 153; 32]);
   (27189, [25; 89; 158; 52; 93]);
   (27197, [218; 155; 25; 91; 143]);
   (27198, [205; 91; 155]);
   (27204, [25; 153; 30]);
   (27207, [205; 89]);
   (27216, [225; 156]);
   (27224, [89; 25; 4; 30; 27]);
   (27225, [25; 218; 89; 4; 91; 197; 96; 155; 160; 190; 126; 32]);
   (27227, [25]);
   (27233, [25; 153; 148; 32; 20]);
   (27237, [205]);
   (27249, [25; 89; 218]);
   (27257, [218; 91; 155; 89]);
   (27260, [251; 89; 160; 91]);
   (27264, [219; 91; 25; 89; 155; 218; 27; 30; 153]);
   (27268, [25]);
   (27278, [251; 89; 91]);
   (27280, [89; 218; 143; 25; 91; 153; 148]);
   (27281, [25; 205]);
   (27287, [89; 251]);
   (27296, [205]);
   (27305, [25; 218; 91]);
   (27307, [205]);
   (27308, [89; 251; 153; 160; 91]);
   (27424, [244; 52; 116; 89; 25; 143; 91; 20; 0; 56; 155; 15]);
   (27425, [86; 102; 71; 227; 214; 43; 70; 160; 25; 89; 180; 107; 68; 135; 4; 88; 52; 150; 116; 79; 153; 158; 155; 84; 99; 148; 94; 143; 35; 152; 7; 32; 20; 91; 29; 30]);
   (27426, [116; 52; 192; 0; 25; 91; 143; 15; 89; 30; 153; 155; 20; 180; 120; 148; 79; 84; 62; 190; 56; 160]);
   (27427, [52; 0; 91; 219; 246; 7; 155; 143; 15; 32; 64; 25; 29; 135; 94; 92; 156]);
   (27428, [252; 91]);
   (27431, [30; 25; 94; 209; 27; 17; 31; 32; 153; 29; 81; 91; 89; 4; 28; 159; 20; 155; 52; 158; 93; 116; 120; 96; 15; 35]);
   (27442, [199; 89; 143; 25; 116; 79; 148; 91; 20; 15; 52; 155; 153]);
   (27447, [251; 91]);
   (27449, [194; 202]);
   (27450, [52; 248; 56; 143; 15; 25; 246; 116; 0; 20; 79]);
   (27454, [89; 116; 217; 86; 214; 25; 153; 52; 68; 81; 102; 84; 120; 160; 96; 148; 91; 56; 0; 64; 20]);
   (27459, [52; 15]);
   (27462, [91; 205; 155; 0]);
   (27463, [244; 52; 116; 153; 89; 158; 155; 25; 91; 30; 132; 159; 157; 180]);
   (27465, [116; 64; 218; 25; 0; 194; 84; 56; 52]);
   (27468, [25; 89; 217; 52; 116; 91; 148; 86; 29; 15; 143; 155; 159; 79; 153; 96; 32; 214; 158; 93; 4; 30; 120; 27]);
   (27481, [205; 30; 25; 91]);
   (27490, [116; 244; 52; 109; 84; 89; 79; 7; 25; 153; 120; 56; 148; 27; 143; 91; 155; 20; 15; 32]);
   (27491, [199; 0; 71; 52; 1; 7; 25; 91; 116; 62; 155; 64; 43; 4; 143; 89; 92; 96; 132; 153; 30; 12; 32; 56; 160; 15; 79; 27; 20; 190; 126; 148; 156; 120; 29; 107; 17; 94; 24; 135; 159; 68; 31; 65; 84; 95; 158; 171]);
   (27492, [230; 70; 38; 102; 71; 6; 43; 134; 42; 148; 84; 143; 15; 24; 79; 20; 32; 91; 52; 155]);
   (27493, [71; 86; 25; 120; 89; 227; 116; 52; 117; 153; 148; 143; 27; 84; 35; 99; 155; 150; 79; 214; 32; 15; 160; 156; 91; 20; 145; 96; 180; 158; 94; 7; 17]);
   (27494, [25; 30; 27; 91; 52; 153; 89; 219; 155; 20; 148; 158; 17; 209; 116; 64; 107; 94; 31; 143; 32; 218; 93; 157; 159; 81; 79; 194; 0; 96; 132; 29; 56; 92; 28; 1; 145; 120; 180; 171]);
   (27495, [89; 52; 25; 194; 148; 91; 155; 56; 143; 153; 32; 132]);
   (27498, [244; 52; 190; 62; 79; 25; 15; 64; 126; 91; 148; 84; 155; 143; 192; 56]);
   (27513, [89; 25; 79; 194; 0; 143; 71]);
   (27515, [244; 116; 52; 25; 153; 143; 89; 15; 71; 79; 91; 62; 7; 190; 84; 148; 64; 0; 20; 120; 17; 180; 126; 56; 155; 160; 68; 30]);
   (27516, [52; 246; 116; 25; 120]);
   (27521, [205]);
   (27522, [205]);
   (27523, [116; 246; 52; 143; 89; 15]);
   (27524, [205; 143; 91]);
   (27526, [52; 199; 64; 79]);
   (27527, [246; 89; 155; 91]);
   (27529, [52; 246; 25; 143; 148]);
   (27530, [64; 199; 153; 25; 52; 91; 84; 15; 0; 89; 155; 79; 148; 180; 7; 20; 159; 184; 160]);
   (27531, [25; 192; 0; 52; 116; 143; 120; 56; 64; 15; 153; 20; 81; 89; 159; 155; 160; 43; 148; 17; 62; 32; 68; 79; 145]);
   (27533, [89; 251; 143]);
   (27538, [52; 79]);
   (27539, [116; 246]);
   (27542, [25; 120; 116; 153; 52; 84; 56; 89; 68; 180; 96; 148; 160]);
   (27546, [15]);
   (27547, [205]);
   (27553, [52; 116; 25; 56; 120]);
   (27562, [205]);
   (27571, [219; 27; 91]);
   (27572, [52; 246; 116; 84]);
   (27573, [89; 86; 227; 153; 27; 76; 107; 102; 25; 148; 116; 214; 79; 91; 30; 120; 84; 28; 35; 81; 155]);
   (27575, [27; 0; 219; 25; 91; 4; 180; 43; 126; 62; 155; 1; 15; 225; 29]);
   (27583, [217; 89; 91; 25; 94; 155; 42; 52; 96; 79; 132; 218; 160; 158]);
   (27585, [116; 244; 52; 25; 15; 91; 56; 148; 153; 143; 160; 20]);
   (27586, [251; 89; 25; 91; 143]);
   (27589, [91; 64; 155; 7; 219; 25; 156; 15; 92; 0; 148]);
   (27595, [20; 199; 27; 6; 15; 143; 7; 155; 219; 91]);
   (27597, [89; 25; 196; 91; 153; 27; 155; 218; 4; 84; 148; 158; 96; 81; 15; 43; 94; 160; 17; 79; 143]);
   (27599, [38; 230; 34; 52; 71; 7; 20; 15; 148; 25; 32; 91; 155]);
   (27602, [25; 89; 116; 217; 120; 153; 52; 84; 64; 96; 148; 67; 180; 0; 143; 68; 81; 160; 79; 244; 15; 56; 132; 17; 62; 20; 32; 171]);
   (27603, [205; 155; 91; 32; 143]);
   (27604, [226; 7; 25; 81; 116; 52; 56; 158; 89; 30; 20; 27; 126; 155; 29; 148; 93; 94; 153; 159; 120; 143; 79; 15; 34; 91; 157; 160; 96; 180; 31; 99; 22; 71; 150; 32; 4; 84]);
   (27605, [7; 52; 246; 116; 25; 27; 143; 15; 155; 4; 30; 89; 91; 94; 32; 28; 219; 153; 29]);
   (27606, [205; 143]);
   (27607, [52; 29; 25; 89; 160; 56; 158]);
   (27609, [116; 244; 52; 79; 84]);
   (27611, [25; 219; 89; 27; 153; 91; 30; 155; 143; 4; 35; 15; 116; 62; 68; 32; 79; 84; 93; 0; 180; 190; 160; 159; 96; 17; 20; 29; 158; 148; 28]);
   (27617, [218; 25; 89; 79; 153]);
   (27626, [205]);
   (27627, [22; 35; 52; 20; 86; 7; 25; 227; 199; 89; 150; 79; 143; 15; 116; 163; 91; 148; 218; 155]);
   (27631, [89; 25; 132; 153; 96]);
   (27635, [205]);
   (27637, [251]);
   (27641, [89; 251]);
   (27645, [180; 25; 116]);
   (27653, [205; 89; 155]);
   (27654, [25]);
   (27655, [89; 251]);
   (27661, [25; 251]);
   (27663, [91; 218; 25; 155; 89; 150; 158; 68; 153; 93; 160; 96; 163; 94; 159]);
   (27664, [205]);
   (27665, [89; 25; 153; 218; 159; 91; 158; 4; 0; 148; 160; 116; 31; 143; 20; 17; 155; 32; 93; 120; 30; 52; 94; 15; 84; 79; 92; 180; 145; 43; 149; 96; 184; 81; 56; 171; 156]);
   (27667, [89; 251; 84; 153; 91]);
   (27668, [89; 25; 217; 116; 153; 64; 143; 148; 0; 15; 79; 52; 84; 62; 67; 155; 96; 184; 4; 95; 120; 159; 132; 71; 126; 158; 190; 81; 91; 20; 180; 160; 32; 56; 109; 65]);
   (27669, [205]);
   (27670, [25; 153]);
   (27672, [205; 25]);
   (27673, [25]);
   (27674, [205]);
   (27675, [89; 25]);
   (27679, [217; 25; 153; 32; 160; 89; 91; 96]);
   (27681, [205]);
   (27682, [25; 217; 89; 153; 116; 160; 91; 155; 96; 32]);
   (27684, [25; 52]);
   (27686, [217; 89; 25]);
   (27687, [153; 25; 52; 217; 89; 160; 116; 120; 68; 56; 91; 155; 32]);
   (27688, [25; 217; 153; 89; 160; 32; 29; 52]);
   (27689, [217; 32; 25]);
   (27690, [205])].
Definition pos_chars_11 : list (char * list N) :=
  [(27694, [217; 25; 89; 153; 96; 52; 93; 32; 160]);
   (27695, [25; 217; 153; 52; 32; 160; 89; 96]);
   (27696, [160; 25; 153; 32; 52; 148; 96]);
   (27698, [251; 89; 155; 116; 91]);
   (27700, [25; 89; 217; 153; 116; 42; 94; 91; 4; 27; 120; 155; 158; 20; 143; 15; 52; 148; 79; 68; 32; 30; 160; 159; 96; 93; 29; 84; 171; 81; 62; 17; 56; 31; 0; 180; 132; 145]);
   (27704, [7; 155; 30; 199; 91; 32; 27; 25; 4; 62; 52; 43; 20; 29; 28; 64; 156; 15; 93; 148; 143; 94; 92; 31; 79; 56; 158]);
   (27709, [244]);
   (27712, [94; 30; 93; 25; 96; 89; 92; 158; 29; 153; 160]);
   (27713, [89; 218; 25; 91; 79; 96; 153; 143; 155; 116]);
   (27714, [116; 89; 244; 52; 153; 143; 79; 84; 120; 91; 56; 25; 15; 158; 148; 155; 32; 20; 180; 159; 96; 29]);
   (27718, [244]);
   (27719, [244; 25; 89; 52; 56; 32; 153; 116; 159; 94; 31; 91; 160; 155; 93; 96; 158; 148; 42; 20; 120; 81; 84; 15; 143; 30]);
   (27721, [209; 25; 107; 32; 89; 27; 94; 30; 43; 91; 155; 158; 17; 81; 29; 96; 160; 159; 153; 52; 148; 93; 4; 79; 31; 84; 143; 92; 157; 28; 156; 180; 20; 116]);
   (27722, [25; 89; 158]);
   (27728, [89; 153; 205]);
   (27732, [205]);
   (27733, [30; 94; 209; 91; 158; 31; 25; 155]);
   (27735, [217; 94; 25; 91; 89; 116; 84; 15; 153; 148; 155; 62; 158; 20; 93; 143; 52]);
   (27739, [43; 89; 218; 120; 91; 155; 116; 153; 25]);
   (27740, [205; 91; 155; 30]);
   (27741, [155; 27; 230; 219; 30; 91; 25; 32; 156; 148; 231]);
   (27742, [217; 25; 89; 96; 163; 91]);
   (27743, [94; 30; 91; 219; 158; 25; 27; 155; 17; 89; 42; 96; 160; 76; 159; 32; 143; 153; 92; 28; 81; 93; 148; 29; 31; 15; 180; 79; 170; 145; 157; 84; 20]);
   (27744, [89; 218; 94; 25; 91; 219; 27; 158; 153; 227; 84; 30; 155; 29; 96; 42; 148; 143; 160; 93; 88; 116]);
   (27745, [56; 25; 116; 153; 218; 89; 52; 143; 120; 132; 79; 0; 246; 15; 64; 180; 160; 32; 145; 91]);
   (27748, [217; 27; 89; 25; 30; 91; 155; 96; 32; 116; 153; 143; 29; 79; 28; 158; 148; 84; 17; 159]);
   (27752, [30]);
   (27753, [97; 33]);
   (27754, [27; 244; 25; 126; 190; 62; 219; 15; 86; 143; 28; 91; 155; 94; 20; 158; 227; 29; 214]);
   (27760, [116; 84; 246; 153; 64; 52; 148]);
   (27762, [52; 27; 244; 91; 155; 15; 156]);
   (27764, [205; 30; 155; 29; 91; 158]);
   (27766, [30; 158; 205; 91; 89; 155; 96; 29; 159]);
   (27769, [52; 79; 143; 25; 126; 62; 148; 15; 0; 190]);
   (27773, [25; 81; 89; 159; 153; 148; 52; 17; 160; 32; 30; 95; 158]);
   (27774, [30; 94; 25; 160; 158; 155]);
   (27777, [30; 244; 91; 158; 94; 155; 15; 96; 52; 25; 20]);
   (27778, [209; 94; 30; 158; 25; 155; 91; 153]);
   (27779, [27; 64; 96; 32; 155; 219; 91; 30; 158; 29; 25; 94; 93; 15; 157; 246; 160; 31; 159; 143]);
   (27781, [30; 209; 91; 155]);
   (27782, [15; 25]);
   (27784, [27; 30; 209; 219; 32; 160; 31; 155; 91; 94; 81; 25; 17; 28; 158]);
   (27785, [52; 0; 244; 25; 64; 116; 126; 62; 190; 56; 143; 148; 15; 91; 79; 1; 89; 20; 155; 84; 120; 132; 92]);
   (27788, [64; 251; 79; 143; 190; 126]);
   (27791, [244; 52]);
   (27792, [52; 246; 32; 91; 148; 155; 116; 15; 29; 143]);
   (27795, [227; 86; 64; 143]);
   (27796, [205; 29; 91; 30]);
   (27801, [25; 27; 217; 89; 94; 158; 30; 91; 153; 32; 155; 96; 29; 52; 0; 116; 143; 79; 93; 84; 159; 157; 160; 31; 148; 120; 97; 33; 56; 15]);
   (27803, [64; 194; 91; 30; 155; 143; 84; 27; 116; 29; 92]);
   (27807, [217; 52; 94; 89; 25; 158; 42; 91; 29; 155; 116; 143; 153; 160; 30; 93; 180]);
   (27809, [52; 199; 20; 180; 116; 79; 0; 148; 71; 15; 143; 7; 1; 25; 128; 32; 155; 145; 56; 153; 91]);
   (27811, [219; 91; 30; 155]);
   (27812, [244; 56; 155]);
   (27813, [25; 218; 143; 97; 91; 190; 126; 155; 153; 52; 96; 89; 158; 32]);
   (27814, [52; 116; 25; 20; 56; 64; 148; 96]);
   (27815, [30; 158; 25; 15; 143; 94; 148; 31; 92; 155]);
   (27817, [205; 30; 25]);
   (27818, [209; 17; 25; 91; 160; 81; 32; 155; 30; 29; 158; 156; 92]);
   (27819, [89; 155; 180; 153; 148; 25; 79; 160]);
   (27821, [30; 209; 158; 91; 94]);
   (27822, [0; 25]);
   (27825, [158; 30; 32; 94; 25; 84; 64; 153; 31]);
   (27827, [30; 94; 25; 217; 89; 91; 158; 42; 116; 96; 153; 31; 27; 155; 93; 79; 92; 81; 143; 159; 32; 52; 160; 20; 29; 145; 84; 148; 17; 15; 120; 56; 171; 157]);
   (27832, [25; 52; 143; 246; 15; 116; 79; 155; 32]);
   (27833, [89; 25; 217; 153; 116; 159; 81; 96; 120; 62; 52; 15; 20; 148; 32; 17; 143; 79; 91; 190; 126; 84; 0; 160; 155; 158; 7; 95; 30; 68; 4; 56; 132; 145]);
   (27835, [89; 52; 116; 153; 244; 158; 120; 148; 25; 159; 107; 91; 155; 160; 96; 84; 30; 94; 143; 93; 79; 56; 20; 180; 15; 32; 157; 156; 17; 132; 81; 92; 29; 145]);
   (27836, [25; 89; 218; 91; 155; 93]);
   (27837, [209; 94; 52; 158; 15; 153; 29; 79; 91; 30; 155; 143]);
   (27838, [244; 52; 143; 15; 91; 30; 155; 20; 79]);
   (27839, [12; 226; 34; 52; 25; 106; 7; 89; 4; 155; 42; 91; 30; 98; 79; 94; 153; 160]);
   (27844, [246; 116; 52; 143; 153; 25; 56; 155; 15; 20; 120]);
   (27845, [52; 244]);
   (27849, [89; 217; 91; 96; 30; 25; 94; 158; 153; 218; 155; 170; 143; 52; 93; 159; 160; 79; 84]);
   (27850, [89; 218; 116; 158; 25; 246; 94; 91; 155; 160; 52; 153; 64; 148; 30; 159; 120; 143]);
   (27852, [116; 89; 153; 25; 32; 52; 30; 160]);
   (27856, [205; 91]);
   (27859, [227; 91; 155]);
   (27860, [25; 153]);
   (27861, [89; 25; 209; 30; 116; 120; 153; 64; 71; 68; 148; 27; 91; 4; 159; 32; 155; 96; 79; 31; 102; 84; 143; 158; 29; 160; 81; 35; 180; 17; 52; 150; 145; 22; 184; 94; 56; 157; 20; 92; 93; 15; 132; 163]);
   (27862, [205]);
   (27863, [30; 209; 91; 153; 155; 93; 25; 158; 29; 94; 143]);
   (27867, [64; 244; 52; 17; 25; 145; 91; 153; 155; 71; 7; 148; 15; 116; 32; 30; 56; 20]);
   (27870, [89; 205; 64]);
   (27872, [219; 159; 91; 96; 62; 155]);
   (27873, [25; 244; 89; 116; 52; 32; 91; 217; 153; 20; 143; 68; 160; 155; 84; 94; 120]);
   (27874, [30; 56; 89; 25; 209; 91; 94; 27; 32; 155; 153; 116; 52; 217; 143; 158; 31; 29; 20; 157; 160; 93; 79; 15; 4; 84; 159; 148; 92; 96; 17]);
   (27875, [116; 218; 15; 246; 153; 52; 79; 143; 84; 89; 120; 25; 91]);
   (27877, [25; 89; 217; 153; 43; 116; 91; 95; 143; 155; 158; 79; 96; 15; 30; 84; 20; 52; 244; 159; 148; 160; 0]);
   (27880, [52; 116; 244; 25; 143; 89; 153; 91; 79; 148; 96; 160; 84; 155; 159; 120; 4; 32; 56; 180]);
   (27882, [89; 25; 217; 116; 148; 20; 62; 143; 15; 153; 79; 84; 91]);
   (27883, [205]);
   (27886, [91; 219; 27; 96; 155; 32]);
   (27887, [246; 52; 84; 155; 91]);
   (27888, [96; 30; 209; 27; 91; 25; 155; 32; 158; 94; 29; 62; 143; 160; 93; 89; 159; 157; 15; 153; 31; 79; 95; 4; 148; 92; 20; 64]);
   (27889, [15; 143; 126; 62; 155; 91]);
   (27891, [120; 89; 153; 246; 25; 116; 91; 155; 84; 156; 159; 160; 158]);
   (27893, [217; 89; 25; 96; 244; 91; 32; 132]);
   (27895, [205]);
   (27896, [30; 29; 32]);
   (27898, [205; 155; 30]);
   (27899, [116; 244; 25; 89; 52; 143; 148; 153; 217; 120; 84]);
   (27900, [244; 64; 25; 0; 52; 116; 84; 43; 155; 143; 91; 190; 126; 148; 33; 15; 180; 153; 89; 32; 158]);
   (27901, [155; 89; 91; 219; 153; 158; 27; 94; 25; 116; 218; 29; 96; 30; 93; 143; 79; 160]);
   (27902, [30; 94; 15; 153; 158; 159]);
   (27905, [64; 91; 194; 62; 153; 0; 116; 155; 126; 148; 25; 15; 32; 84; 89; 96; 160; 79; 180; 52; 92; 143; 81; 159; 20]);
   (27908, [52; 205; 148; 155]);
   (27911, [244; 155]);
   (27915, [89; 94; 25; 153; 194; 158; 96; 159; 68; 148; 143; 91; 219; 126; 190; 79; 52; 160; 30; 42; 155; 15; 116; 92; 196; 84; 62; 0; 17; 180; 120; 64; 20; 4; 32; 132]);
   (27916, [205; 64; 155; 91]);
   (27918, [91; 205]);
   (27922, [244; 64; 116; 52; 0; 38; 143; 79; 91; 20; 25; 190; 126; 155; 148]);
   (27927, [52; 244; 116; 25; 120; 32; 68; 153; 0; 91; 56; 15; 79; 20; 89; 148; 96; 84; 155; 180; 143; 17; 64; 160]);
   (27929, [91; 205; 155]);
   (27931, [30; 158; 155; 209; 91; 27; 29; 157; 25; 94; 160; 153; 32; 93; 31; 159; 96; 15]);
   (27934, [217; 89; 25; 91; 94; 52; 30; 155; 190; 126; 153; 64; 116; 15; 143; 158; 148; 17; 56; 84; 29; 180]);
   (27941, [94; 209; 158; 91; 159; 25; 155; 30; 143; 15; 93; 81; 17; 32; 116; 160; 84; 153; 79; 89; 190; 126; 148; 95; 31; 29; 27; 92]);
   (27943, [205; 91; 29; 155]);
   (27946, [27; 25; 91; 155; 219; 30; 116; 120; 43; 0; 153; 32; 89; 218; 148; 158; 15; 20; 94; 209; 160; 28; 31; 93; 143; 159; 52; 92; 96]);
   (27947, [89; 205]);
   (27950, [30; 94; 25; 158]);
   (27953, [30; 153; 94; 158; 29]);
   (27954, [94; 89; 153; 159; 218; 91; 158; 227; 81; 4; 96; 160; 155; 25; 132; 93]);
   (27955, [251; 89; 155; 91]);
   (27957, [91; 205; 155]);
   (27961, [205; 91]);
   (27963, [120; 56; 52; 217; 25; 64; 116; 153; 244; 89; 0; 7; 148; 71; 4; 79; 20; 62; 143; 17; 180; 171; 91; 15; 84; 155; 158; 43; 32; 184; 93; 192]);
   (27964, [25; 64; 192; 89; 148; 84; 153; 91; 155; 94; 30; 96; 158; 67]);
   (27965, [116; 52; 219; 25; 155; 91; 145; 56; 153; 194]);
   (27966, [244; 89; 52; 25; 116; 91; 86; 68; 64; 153; 102; 120; 214; 96; 155; 32; 148; 29; 143; 84; 159; 30; 95; 92]);
   (27969, [89; 25; 52; 56; 244; 153; 116; 120; 158; 68; 143; 20; 148; 0; 64; 79; 91; 94; 15; 155; 102; 81; 4; 84; 30; 71; 170; 160; 132; 32; 159; 180; 62; 190; 96; 35; 17]);
   (27971, [143; 205; 155]);
   (27973, [192; 25; 4; 0; 89; 64; 116; 190; 27; 62; 79; 84; 91; 148; 52; 143; 155; 29; 30; 126; 56; 15; 156]);
   (27974, [89; 217; 25; 153; 116; 32; 52; 30; 120; 79; 244; 143; 91; 96]);
   (27975, [244; 52; 153; 143; 91; 25; 20; 0]);
   (27976, [205; 91; 155]);
   (27978, [195; 64; 25; 116; 155; 91; 153; 194; 143; 89; 30; 67; 68; 32]);
   (27979, [116; 120; 56; 52; 244; 153; 25; 32; 79; 91; 84; 93; 159; 81; 143; 89; 160; 155; 148]);
   (27981, [205; 91]);
   (27982, [89; 153; 30; 209; 148; 155; 91; 116; 159; 160; 246; 143; 64; 79; 94; 52; 84; 96; 158; 128; 156; 29; 32; 68; 25; 31; 27; 15; 145; 81; 93; 180; 132]);
   (27983, [30; 52; 25; 56]);
   (27985, [25; 192; 0; 30; 89; 62; 126; 91; 15; 20; 190; 155; 116; 64; 143; 148]);
   (27986, [160; 89; 205; 91; 96; 30; 29; 155]);
   (27987, [0; 25; 192; 52; 62; 190; 153; 20; 15; 56; 4; 91; 126; 155; 143; 96; 132; 148; 158; 84; 32]);
   (27988, [209; 30; 94; 155; 91; 158]);
   (27993, [30; 209; 81; 31; 32; 96; 91; 155; 25; 159; 17]);
   (27994, [218; 116; 91; 30; 155; 92]);
   (27996, [94; 89; 32]);
   (27998, [244; 91]);
   (28000, [205; 30; 91; 155]);
   (28003, [246; 25; 153; 155; 91]);
   (28006, [30; 94; 158; 31; 27; 209; 91; 219; 160; 81; 155; 96; 159; 17; 93; 29; 28; 32]);
   (28009, [91; 219; 158; 0; 194; 143; 155; 15; 25; 52; 30; 153; 148; 180; 62; 32; 20; 56; 96; 159; 92]);
   (28010, [217; 89; 25; 96; 52; 0; 153; 116; 79; 143; 91; 148; 84; 32; 155; 160; 120; 20; 64; 158; 159; 15; 132; 94; 30; 93; 31]);
   (28014, [244; 25; 52; 116; 56; 0; 20; 153; 64; 91; 27; 148; 30; 94; 15; 158; 143; 160; 155; 89; 120; 32; 96; 68; 79; 93]);
   (28015, [205; 155; 30; 91]);
   (28020, [116; 25; 248; 89; 91; 246; 120; 160; 15; 52; 155; 81; 153; 56]);
   (28023, [25; 94; 217; 42; 89; 158; 30; 76; 91; 159; 27; 32; 155; 31; 116; 96; 153; 29; 160; 52; 106; 79; 56; 35; 17; 22; 143; 93; 170; 20; 148; 15; 120; 4; 81; 145; 156; 150; 68; 92; 84; 157; 28; 163]);
   (28024, [52; 244; 116; 89; 25; 56; 155; 32; 153; 190; 126; 148]);
   (28028, [205]);
   (28034, [244; 64; 25; 52; 27; 89; 126; 143; 153; 79; 120; 116; 94; 190; 91; 93; 15; 158; 30; 155; 96; 32; 84; 56]);
   (28037, [218; 155; 91; 246; 158; 157; 93; 30; 29; 96; 94]);
   (28040, [25; 56; 52; 116; 244; 0; 153; 20; 4; 143; 84; 148; 17; 32; 159; 155; 91; 89]);
   (28041, [52; 116; 246; 56; 25; 153; 79; 148; 143; 91; 155; 120; 30; 84; 209; 15]);
   (28044, [52; 244; 116; 25; 79; 89; 91; 84; 96; 143; 64; 155; 93; 30; 158; 94]);
   (28046, [116; 143; 25; 153; 52; 15]);
   (28049, [205; 30]);
   (28051, [126; 62; 25; 155; 15; 91]);
   (28052, [205; 155; 158; 91; 190; 126]);
   (28053, [89; 218; 116; 143; 79; 25; 52; 15; 91]);
   (28059, [91; 89; 219; 143; 148; 25; 155; 218; 92; 96]);
   (28061, [89; 244; 116; 25; 148; 120; 155]);
   (28062, [205; 30; 155; 91; 29]);
   (28063, [30; 25; 126; 62; 190; 89]);
   (28064, [205]);
   (28065, [25; 89; 30; 148; 153]);
   (28067, [52; 143; 15]);
   (28068, [116; 25; 218; 153; 246; 155; 91; 120; 52; 143; 160; 32]);
   (28070, [89; 116; 244; 153; 64; 155; 91; 25; 52; 96; 56; 84; 30; 32; 159; 160; 94; 120; 79; 158; 190; 20; 126]);
   (28071, [218; 89; 91; 30; 155; 94; 93; 158]);
   (28072, [116; 244; 25; 52; 64; 17; 143; 56; 91; 155; 153; 84; 32; 148]);
   (28073, [64; 192; 116; 25; 79; 29; 52; 155; 30; 153]);
   (28074, [30; 29]);
   (28075, [205; 155; 91]);
   (28078, [244; 25; 116; 180; 52]);
   (28079, [89; 218; 79; 143; 148; 116; 91; 84; 160; 155]);
   (28082, [89; 25; 218; 56; 96; 116; 153; 84; 91; 32; 120; 143; 79; 160]);
   (28085, [89; 52; 25; 116; 91; 155; 246; 27; 120; 92; 153; 0]);
   (28088, [116; 15]);
   (28095, [30; 25]);
   (28096, [25; 116; 89; 94; 153; 158; 30; 120; 159; 148]);
   (28100, [30; 94; 158; 157]);
   (28101, [30; 190; 33; 62; 25]);
   (28102, [116; 143; 52; 148]);
   (28103, [205; 91; 153; 30; 155; 32; 160]);
   (28107, [25; 244; 190; 126; 52; 15; 143; 148; 91; 56; 89; 79; 155; 84; 32; 153; 160; 0]);
   (28108, [244; 116; 158; 155]);
   (28113, [25; 64; 156; 143; 89; 29]);
   (28118, [205; 158; 89; 91; 155; 25]);
   (28120, [52; 244; 0; 25; 155; 148; 91; 153; 160; 32; 143]);
   (28121, [97; 33]);
   (28125, [205; 30]);
   (28126, [205; 155; 91; 158]);
   (28128, [205; 30]);
   (28129, [25; 192; 64; 62; 52; 126; 190; 4; 116; 143; 0; 89; 155; 91; 15; 84; 20; 43; 30; 148; 158; 17; 153; 67; 56]);
   (28132, [244; 52; 25; 116; 155; 89; 248; 148; 91; 84]);
   (28134, [219; 91; 155]);
   (28139, [0; 116; 194; 25; 143; 52; 64; 120; 160; 79; 56; 91; 84]);
   (28140, [56; 32; 52]);
   (28142, [30; 209; 81; 158; 91; 32; 155; 25; 94; 92; 145; 93; 29; 160; 31]);
   (28145, [192; 52; 30; 0; 25; 17; 42; 89; 7; 71; 31; 4; 32; 64; 15; 43; 116; 68; 91; 143; 20; 148; 79; 92; 155; 107; 160; 84; 135; 153; 93; 62; 190; 96; 29; 158]);
   (28147, [91; 194; 0; 93; 27; 32; 30; 155; 29; 158; 96]);
   (28151, [25; 56; 244; 52; 0; 4; 15; 116; 143; 20; 64; 32; 91; 160; 148; 81; 155; 89; 68; 17; 153; 62; 190]);
   (28153, [52; 244; 91; 89; 148; 25; 29; 116]);
   (28155, [244; 116; 52; 25; 143; 91; 15; 56; 20; 155; 148; 92]);
   (28156, [64; 79; 92]);
   (28165, [0; 192; 25; 43; 52; 116; 91; 155; 107; 56; 89; 30; 68; 62; 190; 31; 27; 84; 148; 171; 158; 17; 20; 15; 153; 64; 120; 143; 94; 32; 4; 29; 126; 79; 159; 92; 160; 93; 81; 67; 3; 96; 1; 156; 157]);
   (28170, [91; 218; 25; 155; 89; 0; 148; 94; 158; 143; 84; 79; 156; 27; 93; 92; 15]);
   (28172, [205; 126; 190; 91; 155]);
   (28173, [244; 89; 116; 180; 25; 153]);
   (28174, [116; 56; 52; 158; 25]);
   (28176, [71; 199; 7; 52; 25; 91; 143; 155; 15; 148; 79; 84; 92]);
   (28177, [30; 205]);
   (28180, [25; 209; 81; 91; 218; 145; 15; 155; 116; 159; 79; 158; 153; 89; 143; 20; 148; 30; 160; 52; 246; 92]);
   (28183, [52; 244; 25; 116; 153; 91; 96; 160; 56; 32; 17; 120]);
   (28186, [205; 94; 158; 155; 91; 30]);
   (28189, [209; 91; 31; 30; 160; 79; 84; 81; 155; 29]);
   (28192, [25; 217; 89; 91; 94; 27; 143; 153; 30; 155; 158; 52; 96]);
   (28193, [116; 244; 52; 25; 153; 91; 89; 155; 30; 94; 158; 32; 120; 160; 96; 143; 148; 27; 93; 92; 84; 29; 157]);
   (28195, [89; 217; 31; 32; 25; 153; 30; 91; 159; 96; 155]);
   (28196, [25; 30; 158; 145]);
   (28197, [30; 64; 159]);
   (28201, [25; 89; 244; 0; 27; 116; 3; 30; 91; 153; 155; 96; 64; 15; 148; 52; 62; 29; 68; 160; 158; 20; 218; 190; 93; 17; 81; 94; 159; 143; 84; 4; 31; 32; 145]);
   (28203, [205]);
   (28205, [30; 92; 143; 93; 158; 94]);
   (28207, [94; 25; 209; 89; 22; 150; 159; 153; 158; 91; 17; 160; 102; 96; 116; 30; 155; 81; 145; 4; 32; 84; 20; 132]);
   (28210, [52; 246; 91; 155]);
   (28212, [52; 192; 116; 89; 79; 64; 84; 244; 143; 155; 91; 56]);
   (28216, [25; 89; 244; 120; 52; 76; 153; 56; 116; 27; 4; 91; 81; 148; 15; 159; 158; 96; 180; 143; 20; 94; 84; 155; 160; 79; 93; 145]);
   (28218, [0; 194; 64; 79; 15; 143; 20; 91; 126; 155]);
   (28227, [116; 251; 79; 91; 155; 84; 64]);
   (28228, [30; 25; 29]);
   (28237, [194; 25; 0; 91; 89; 155]);
   (28238, [251; 116; 143]);
   (28243, [205]);
   (28244, [205]);
   (28246, [30; 94; 25; 217; 89; 91; 42; 32; 158; 153; 155; 31; 160; 15; 84; 76; 143; 116; 145; 81; 159; 148; 96; 79; 4; 17; 93; 20]);
   (28248, [209; 30; 17; 155; 91; 94; 25; 31; 32; 81; 160; 158; 159]);
   (28251, [30; 64; 27; 62; 91; 219; 155; 209; 159; 93; 190; 158]);
   (28255, [30; 205; 91; 155])].
Definition pos_chars_12 : list (char * list N) :=
  [(28267, [205; 96; 91; 155]);
   (28270, [52; 15]);
   (28286, [94; 89; 244; 158; 91; 160; 159; 30; 25; 155; 227; 153; 96; 93; 106; 29; 132]);
   (28287, [52; 192; 25; 64; 244; 116; 89; 0; 153; 62; 148; 157; 126; 68; 91; 96; 190; 84; 160; 4; 145]);
   (28291, [116; 52; 246; 25; 153; 15; 79]);
   (28293, [244; 116; 52; 155]);
   (28294, [205; 30; 155; 91]);
   (28297, [120; 246; 116; 153; 84]);
   (28303, [205; 84]);
   (28304, [89; 218; 52; 25; 91; 153; 180; 94; 116; 84; 96; 155; 15; 158; 143; 159; 160; 132; 79; 93; 68; 7; 71; 29; 32; 120; 92; 95; 81; 30; 156; 145]);
   (28312, [15]);
   (28316, [244; 190; 126; 86; 52; 135; 89; 64; 62; 227; 116; 148; 15; 155; 91; 97; 25; 153; 84; 143]);
   (28319, [205; 91; 155]);
   (28322, [25; 116; 244; 52; 91; 20; 84; 155; 120; 79; 153; 148]);
   (28325, [91; 27; 155; 219]);
   (28327, [30; 205]);
   (28330, [217; 91; 94; 25; 89; 155; 158; 30; 93; 96; 160; 153; 218; 42; 159]);
   (28335, [116; 246; 52; 148; 91; 155; 143; 160; 120]);
   (28337, [205]);
   (28338, [205]);
   (28340, [218; 25; 32; 160]);
   (28342, [25; 52; 244; 153; 91; 89; 116; 148; 160; 96; 155; 126; 62; 68]);
   (28343, [205; 0]);
   (28346, [246; 52; 116; 25; 89]);
   (28349, [25; 0]);
   (28353, [30; 25]);
   (28354, [148; 0; 25]);
   (28359, [209; 30; 29; 17; 25; 91; 155; 32]);
   (28363, [52; 25; 153; 244; 190; 126; 148; 91; 94; 155; 56; 20; 29; 96; 158; 32]);
   (28367, [30; 205; 91]);
   (28369, [116; 244; 52; 25; 64; 153; 0; 56; 27; 120; 30; 89; 20; 126; 32; 143; 62; 160; 91; 79; 155; 84; 148; 15; 158]);
   (28371, [205; 89; 158; 155]);
   (28372, [62; 126; 143; 91; 15; 246; 155; 20; 25; 148]);
   (28373, [27; 219; 91; 155; 160; 25; 30; 157; 93; 158]);
   (28375, [244]);
   (28378, [244; 52; 62; 126; 25; 116; 143; 20; 148; 89; 56; 153; 4; 32; 190; 84; 15; 155; 91]);
   (28382, [116; 52; 246; 25; 64; 143; 153; 120; 89; 56]);
   (28383, [84; 126; 251]);
   (28384, [205]);
   (28385, [192; 52; 116; 64; 25; 30; 7; 27; 32; 91; 155; 143; 148; 15; 20; 62; 190; 4; 158; 153; 81; 79; 43; 0; 89; 107; 160; 94; 17; 71; 159; 126; 28; 180; 92]);
   (28386, [91; 205; 155]);
   (28388, [244; 116; 25; 153; 52; 32; 160; 89; 91; 29]);
   (28389, [116; 52; 193; 192; 143; 84; 25; 20; 15; 79; 89; 148; 180; 56]);
   (28390, [30; 209; 94; 148; 159; 155; 29; 158; 91; 145]);
   (28392, [25; 94; 89; 218; 30; 158; 91; 155; 159; 160; 106; 27; 153; 93]);
   (28393, [89; 218; 25; 94; 91; 116; 155; 153; 159; 158; 93; 160; 96]);
   (28404, [244; 25; 89; 86; 52; 33; 79; 227; 153; 62; 15; 190; 126; 150; 161; 214; 91; 143; 30; 20; 160; 56; 84; 32; 184; 148; 155]);
   (28409, [30]);
   (28418, [0; 52; 244; 25; 89; 91; 190; 62; 15; 64; 56; 32; 155; 153; 143]);
   (28422, [89; 217; 62; 25; 27; 244; 190; 126; 96; 15; 79; 116; 153; 143; 160; 93]);
   (28425, [126; 190; 244]);
   (28431, [244; 116; 25; 52; 89; 32; 79; 20; 120; 15; 143; 56; 145; 180; 43; 153; 96]);
   (28435, [116; 143; 30; 79; 84; 209; 91; 64]);
   (28436, [52; 116; 25; 120; 89; 244; 56; 153; 148; 160; 155; 91; 79; 96; 159; 156; 17]);
   (28437, [52; 25; 30; 158]);
   (28448, [89; 94; 25; 64; 62; 30; 180; 116; 52; 153; 126; 15; 184; 20; 56; 92]);
   (28452, [244]);
   (28457, [25]);
   (28458, [155; 89; 205; 91; 25]);
   (28459, [0; 64; 153; 116; 244; 25; 89; 15; 52; 62; 56; 155; 84; 91; 126; 79; 20; 148; 30; 4; 160; 158]);
   (28461, [251]);
   (28463, [30]);
   (28465, [244; 116; 52; 155; 153; 91; 25; 160]);
   (28467, [30; 209; 94; 32; 158; 91; 25; 155]);
   (28470, [116; 251]);
   (28478, [116; 244; 91; 30; 155]);
   (28486, [251; 155]);
   (28487, [0; 30; 91; 155; 62; 126; 209; 190; 31; 15]);
   (28491, [148; 62; 251; 91]);
   (28493, [30]);
   (28504, [27; 219; 91; 30; 155; 93; 32; 28; 29; 158; 89; 25; 94; 157; 160]);
   (28508, [25; 244; 52; 4; 153; 120; 91; 7; 116; 30; 43; 56; 155; 15; 160; 32; 143; 20; 159]);
   (28510, [205; 32; 30; 155; 91]);
   (28514, [205; 89; 30; 91; 148; 155; 116]);
   (28518, [0; 143; 148]);
   (28525, [217; 94; 89; 158; 91; 25; 155; 143; 93; 160; 30; 159; 153; 79; 84]);
   (28526, [89; 217; 25; 91; 0; 30; 116; 52; 153; 155; 79; 148; 143; 160; 95; 20; 29; 96; 94; 56; 62; 180; 159; 92; 84]);
   (28530, [244; 25]);
   (28532, [52; 30]);
   (28536, [15; 62; 126; 155; 91]);
   (28538, [126; 62; 97; 15; 33; 143]);
   (28540, [30; 94; 158; 205; 93; 91; 155]);
   (28548, [52; 244; 91; 30; 155; 0; 190; 126; 62; 209; 32; 29; 64]);
   (28552, [64; 205; 126; 148; 91; 155]);
   (28553, [30; 205]);
   (28556, [205; 155; 91]);
   (28557, [91; 155; 205]);
   (28558, [30; 52; 25; 143; 91; 209; 155; 219; 148]);
   (28572, [30; 89; 79; 92; 148; 143; 96; 91; 64; 153]);
   (28577, [116; 218; 25; 153; 89; 160; 246]);
   (28583, [30; 209; 91; 94; 155]);
   (28595, [30; 209; 25; 81; 31; 94; 158; 150; 32; 35; 91; 145; 22; 155; 157; 17; 29; 96; 93; 159]);
   (28598, [205; 30; 91]);
   (28601, [27; 0]);
   (28608, [116; 0; 25; 52; 153; 244; 143; 148; 20; 64; 56; 91; 15; 84; 155; 89; 32; 120; 160; 132]);
   (28610, [205; 91; 155]);
   (28617, [205; 30; 91]);
   (28625, [30; 27; 93; 29; 94]);
   (28626, [52; 246; 56; 4; 91; 155; 25]);
   (28638, [251; 91; 94]);
   (28640, [205; 91; 155; 30; 31]);
   (28641, [246; 143; 52; 155; 91]);
   (28654, [30; 219; 27; 155; 91]);
   (28655, [246; 116; 52; 155; 32]);
   (28689, [25; 218; 89; 158; 91; 155]);
   (28698, [91; 64; 25; 155; 205; 126; 143]);
   (28699, [205; 155; 91; 30; 89; 25; 32]);
   (28707, [143; 89]);
   (28725, [205]);
   (28729, [205]);
   (28748, [25; 56; 244; 52; 116; 89; 155; 91; 148; 30; 153; 17; 29; 143; 145; 20; 120; 4; 32; 160]);
   (28751, [205; 91; 155]);
   (28766, [251; 30]);
   (28779, [25; 217; 89; 116; 0; 153; 143; 52; 62; 148; 64; 7; 4; 79; 17; 15; 91; 68; 120; 30; 84; 20; 93; 155; 160; 158; 190; 126; 31; 32; 159; 96; 43; 128; 27; 28; 56; 94; 180; 81; 145]);
   (28781, [116; 244; 52; 153; 79; 91; 15; 143; 25; 84; 120; 180; 148; 96]);
   (28783, [89; 25; 217; 116; 143; 153; 91; 120; 43; 96; 15; 30; 160; 155; 94; 148; 79; 84; 32]);
   (28784, [25; 217; 153; 89; 62; 143; 194; 15; 52; 192; 148; 79; 91; 68; 160; 116; 84; 32; 64; 155; 81; 158; 0]);
   (28789, [25; 0; 89; 192; 91; 27; 30; 155; 64; 116; 153; 15; 94; 158; 79; 143; 29; 52; 148; 190; 126; 96; 93; 84; 4; 160; 56; 92; 32; 157]);
   (28790, [217; 89; 25; 116; 79; 91; 158; 155; 84]);
   (28792, [89; 205; 153; 91]);
   (28796, [246; 62; 64; 52; 126; 25; 120; 153; 143; 91; 116; 194; 155]);
   (28798, [25; 217; 89; 148; 120; 143; 116; 153; 79; 84; 20; 91]);
   (28799, [0; 91; 194; 190; 126; 143; 155; 15; 32; 20; 84; 148; 62]);
   (28800, [155; 29; 205; 91]);
   (28805, [205; 91; 155]);
   (28809, [89; 217; 25; 116; 32; 96; 91; 153; 15; 143; 84; 42; 155; 218; 30]);
   (28810, [25; 246; 89; 79; 116; 20]);
   (28814, [89; 218; 25; 0; 91; 155; 116; 29; 120; 96; 211; 126; 62; 143; 17; 153; 30; 32; 148; 20]);
   (28818, [52; 244; 116; 25; 56; 89; 91; 153; 20; 155]);
   (28820, [89; 25; 160]);
   (28821, [217; 25; 89; 42; 155; 116]);
   (28822, [244; 25; 116; 52; 32]);
   (28825, [143; 15; 0; 116; 52; 79]);
   (28828, [91; 219; 155]);
   (28829, [244]);
   (28843, [52; 246; 0; 91; 155; 25; 32]);
   (28844, [89; 160; 205; 79; 155; 91; 153; 143]);
   (28845, [89; 217; 25; 153; 171; 116; 79; 52; 159; 32; 158; 30; 84; 160]);
   (28846, [89; 25; 217; 91; 116; 52; 84; 153; 244; 81; 30; 159; 148; 143; 15; 79; 56; 158]);
   (28847, [143; 126; 62; 92; 15; 79]);
   (28849, [205]);
   (28851, [91; 155; 205; 30; 116; 143; 156]);
   (28855, [227; 91]);
   (28856, [116; 25; 244; 153; 52; 148; 89; 79; 132; 120; 91; 155]);
   (28857, [89; 214; 86; 227; 52; 71; 25; 150; 180; 116; 120; 88; 135; 153; 143; 91; 155; 84; 79; 148; 159; 20; 152; 15; 22; 35; 96; 32; 132; 4; 166; 190; 126; 107; 68; 56; 64; 160; 81; 99]);
   (28859, [251; 25]);
   (28860, [116; 52; 244; 25; 56; 153; 91; 64; 120; 79; 17; 96; 155; 143; 160; 32; 159; 15; 84]);
   (28861, [0; 153; 194; 91; 64; 155; 68]);
   (28864, [244]);
   (28865, [116; 194; 190; 126; 205; 143; 91; 155]);
   (28866, [244; 116; 64; 192; 89; 25; 143; 126; 62; 79; 52; 190; 148; 155; 84; 153; 15; 91; 0; 32; 120; 20; 180]);
   (28867, [89; 217; 25; 91; 155]);
   (28872, [64; 192; 25; 91; 79; 143; 84; 89; 155; 65; 94; 4; 157; 62; 126; 68; 148; 158; 153; 32; 20; 15; 92; 116]);
   (28874, [251; 116; 155; 91]);
   (28888, [244; 52; 190; 126; 25; 148; 64; 91; 56; 15; 155]);
   (28889, [25; 244; 89; 91; 153; 155]);
   (28891, [89; 218; 25; 116; 91; 52; 79; 143; 155; 148; 56]);
   (28895, [25; 217; 89; 116; 153; 30; 143; 148; 15; 91; 32; 71; 120; 96; 155; 79; 52; 20; 68; 31; 160; 62; 84; 159; 145]);
   (28900, [244; 25; 116; 52; 153; 158; 120; 96; 32]);
   (28902, [0; 244; 67; 64; 116; 84; 143; 3; 79; 52; 25; 91; 153; 148; 155; 56; 192; 94; 158]);
   (28903, [244; 116; 52; 25; 153; 89; 143; 158; 68; 56; 79; 0; 84; 20; 155; 148; 32; 120]);
   (28904, [91; 219; 155]);
   (28905, [25; 244; 89; 155; 91]);
   (28907, [244; 126; 52; 0; 116; 89; 4; 68; 25; 84; 155]);
   (28908, [89; 84; 205; 91]);
   (28909, [25; 192; 0; 116; 153; 64; 52; 89; 126; 62; 20; 30; 15; 180; 79; 120; 148; 158; 56; 190; 84; 32; 143; 160; 1; 155; 29; 96; 93; 91; 4; 132; 67; 94; 157; 17; 68; 145; 184; 27]);
   (28911, [89; 251; 25; 153; 160; 96; 91; 155; 32]);
   (28919, [89; 25; 217; 96; 91; 155; 153; 160; 32]);
   (28921, [52; 244; 56; 25; 159; 79; 148; 32; 143; 91]);
   (28925, [25; 94; 158; 15; 92]);
   (28937, [244; 30; 79; 91; 143; 15; 155; 252; 84; 230]);
   (28938, [52; 244; 25; 89; 120; 56; 153; 68; 96; 32; 116; 91; 148]);
   (28944, [244]);
   (28947, [205; 91; 155]);
   (28949, [91; 246; 52; 155; 143; 15; 62; 194; 156]);
   (28950, [244; 116; 91; 25]);
   (28952, [91; 219]);
   (28953, [244; 52; 116; 155; 32; 91; 25]);
   (28954, [52; 246; 116; 25; 79; 15; 91; 155; 20; 84; 56]);
   (28966, [25; 0; 192; 27; 30; 116; 89; 120; 153; 15; 35; 64; 62; 52; 56; 91; 219; 209; 155; 96; 32; 218; 31; 148; 79; 143]);
   (28975, [244; 91; 155]);
   (28976, [89; 25; 153; 92; 84; 143; 91]);
   (28977, [205; 91; 155]);
   (28982, [71; 70; 6; 65; 153; 68; 64; 148; 230; 143; 126; 79; 91; 89; 116; 134; 84; 160; 171; 155; 159; 158; 102; 180; 117; 92; 93; 198; 96; 190]);
   (28997, [244; 52]);
   (29002, [91; 251; 0; 155]);
   (29004, [94; 64; 194; 205; 79; 91; 153; 158; 155; 159]);
   (29006, [244; 52; 116; 56; 25; 153; 190; 126; 89; 32; 155; 148]);
   (29020, [92]);
   (29022, [244; 62; 20; 25; 15; 79; 52; 116; 201; 89; 143; 155; 91]);
   (29028, [25; 217; 89; 17; 116; 81; 153; 32; 160; 120; 159; 52; 91; 31; 96; 30]);
   (29030, [91; 155; 219; 64; 190; 126; 0]);
   (29031, [98; 52; 244; 25; 116; 89; 7; 153; 91; 155; 81; 143; 148; 158; 79; 56; 84; 160; 4; 15; 120; 20; 32]);
   (29032, [244; 91]);
   (29038, [244; 52; 116; 155; 91; 143; 160]);
   (29042, [244; 89; 25; 96]);
   (29043, [192; 91]);
   (29048, [244; 25; 116]);
   (29050, [244]);
   (29053, [52; 0; 20; 25; 56]);
   (29060, [52; 244; 25; 148; 89; 153; 56; 116; 155]);
   (29066, [27; 217; 25; 89; 153; 126; 62; 91; 155; 93; 143; 30; 15; 96; 148; 160; 116; 31; 159; 32]);
   (29071, [244; 56; 52; 116; 148; 25; 91; 32; 96; 155]);
   (29076, [25; 52; 244; 89; 20; 155; 56; 116; 91; 153; 96; 32; 148]);
   (29080, [244; 155]);
   (29081, [89; 96; 32; 15; 143; 156; 93; 92; 107; 62; 91; 27; 25; 158; 159]);
   (29087, [64; 52; 192; 244; 25; 0; 116; 143; 94; 153; 89; 79; 126; 84; 91; 15; 148; 20; 158; 120; 68; 160]);
   (29088, [126; 62; 15; 143; 155; 91]);
   (29096, [244; 52; 153; 25; 0; 155]);
   (29100, [244; 116; 52; 64; 120; 91]);
   (29107, [251; 64; 91]);
   (29109, [205; 89; 91]);
   (29113, [91; 32; 29; 0; 96]);
   (29123, [25; 52; 116; 246; 153; 68; 15; 64; 148; 79; 91; 160; 120; 155; 96; 17; 132]);
   (29134, [244; 79; 52; 84; 20; 25; 126; 148; 91; 155]);
   (29140, [205]);
   (29141, [27; 30; 219; 25; 91; 32; 155; 89; 31; 143; 218; 93; 153; 92; 15; 94; 20]);
   (29152, [0; 194; 91]);
   (29157, [64; 194; 0; 89; 25; 91; 84; 160; 153; 143; 79]);
   (29159, [89; 25; 29; 92]);
   (29166, [91; 205; 155]);
   (29177, [89; 205]);
   (29190, [52; 64; 25; 244; 116; 56; 153; 96; 160; 68; 4; 84; 89; 120; 190; 126; 81; 91; 20; 155]);
   (29213, [251]);
   (29224, [205; 91]);
   (29226, [218; 30; 25; 89; 79; 91; 157; 153; 160; 158]);
   (29228, [244; 52; 25; 116; 148; 79; 153; 20; 56]);
   (29232, [205; 91; 155]);
   (29233, [244; 25; 116; 155; 0; 64; 27; 52; 30; 89; 91; 32; 68; 29; 15; 158; 56; 84; 31; 120; 79; 20; 159; 128; 148; 143; 190; 126; 81; 93; 96; 153; 160; 157; 43; 28]);
   (29237, [89; 91; 218; 25; 116; 155; 79]);
   (29238, [25; 89; 218; 102; 91; 4; 153; 116; 155; 93; 148; 20; 17; 145; 143; 79; 43; 96; 160; 94; 15]);
   (29239, [89; 218; 91; 25; 153; 155; 158; 38; 148]);
   (29240, [89; 25; 217; 91; 155]);
   (29241, [217; 89; 25; 91; 155]);
   (29243, [205; 25; 91; 89]);
   (29245, [64; 0; 219; 91; 79; 32; 155; 116; 25; 126; 56; 190; 148; 29; 128; 15; 7; 153; 132; 194]);
   (29247, [227; 91; 155]);
   (29255, [89; 86; 227; 22; 25; 160; 116; 153; 0; 4; 214; 96; 102; 159; 150; 84; 42; 32; 143; 120; 15; 190; 126; 68; 148; 7; 27; 79; 155; 91; 94; 132; 52; 35; 180; 29]);
   (29256, [116; 217; 25; 153; 89; 159; 158; 120; 68; 102; 148; 30; 96; 84; 152; 32]);
   (29260, [89; 116; 217; 25; 68; 96; 153; 84; 79; 91; 159; 81; 184; 148; 93; 30; 158]);
   (29261, [89; 205; 79; 153; 143]);
   (29266, [205; 89; 84; 91]);
   (29270, [205; 89]);
   (29273, [94; 217; 25; 89; 158; 153; 116; 91; 143; 160; 30; 148; 159; 79; 84; 56; 96; 93; 32; 52; 31; 64; 20; 15]);
   (29275, [217; 25; 27; 89; 158; 116; 153; 91; 30; 96; 35; 31; 143; 155; 15; 94; 43; 160; 159; 148; 180; 20; 29; 32; 79; 84; 0; 95; 107; 120; 28; 145]);
   (29277, [25]);
   (29279, [27; 219; 94; 52; 153; 158; 20; 91; 30; 246; 155; 28]);
   (29281, [25; 30; 155; 20; 32; 31]);
   (29282, [192; 0; 71; 7; 25; 116; 89; 52; 180; 158; 91; 79; 155; 153; 64; 143; 15; 1; 218]);
   (29286, [25; 32])].
Definition pos_chars_13 : list (char * list N) :=
  [(29287, [25; 153; 116; 209; 89; 27; 81; 91; 145; 219; 155; 52; 120; 160; 246; 56; 94; 159; 218; 180]);
   (29289, [89; 25; 153; 218; 84; 116; 20; 158; 81; 148; 95; 79; 102; 52; 91; 160; 159; 15; 143; 32; 96; 155; 93; 17; 68; 56; 145]);
   (29294, [205]);
   (29295, [25; 153]);
   (29298, [116; 25; 153; 89; 79; 84; 171; 160]);
   (29301, [52; 244; 25; 56; 32; 15; 91; 143; 0; 20; 116; 148; 79; 1]);
   (29305, [25; 7; 91; 0; 199; 4; 93; 155; 64; 158; 94; 27; 52; 153; 29; 96; 157; 160; 89; 148; 30; 159; 17; 99; 62; 32; 132; 56; 145; 143; 15; 20; 31; 88; 81; 86; 95]);
   (29306, [52; 25; 143; 148; 17]);
   (29310, [246; 116]);
   (29312, [25; 218; 0; 89; 91; 153; 143; 155; 15]);
   (29313, [217; 94; 158; 25; 91; 52; 153; 89; 244; 32; 155; 15; 116; 92]);
   (29316, [25]);
   (29322, [218; 89; 25; 84; 153; 148; 143]);
   (29323, [227]);
   (29325, [30; 25]);
   (29327, [251]);
   (29330, [52; 25]);
   (29343, [192; 64; 25; 52; 91]);
   (29356, [218; 89; 25; 153; 91; 143; 15; 79; 148; 84]);
   (29359, [244; 56; 116; 89; 52; 25; 79; 71; 153; 143; 20; 148; 15; 91; 84; 120]);
   (29360, [25]);
   (29364, [91; 89; 251]);
   (29366, [25; 89; 218; 153; 148; 96; 116; 68; 91; 79; 52; 155; 84; 160; 120; 32; 31]);
   (29367, [64; 0]);
   (29368, [153; 89; 251]);
   (29369, [0; 52; 199; 25; 32; 148; 143; 15; 30; 20; 190; 62; 93; 91; 158; 155; 153; 116; 31; 3]);
   (29377, [251]);
   (29378, [64; 199; 25; 0; 52; 15; 79; 143; 116; 20; 56; 89; 153; 148; 84; 3; 91; 96; 155; 65]);
   (29379, [205]);
   (29380, [27; 219; 91; 155; 218; 158; 160; 29]);
   (29384, [65; 67; 251; 143]);
   (29389, [25]);
   (29390, [52; 0]);
   (29392, [25; 219; 96; 52; 218; 89; 15; 155; 153; 143; 91; 116; 159]);
   (29394, [25; 89]);
   (29399, [217; 25; 89; 91; 155; 143; 15; 79; 20; 27; 32; 153; 52; 116; 84; 96; 148; 107; 160; 43; 30]);
   (29401, [52; 25]);
   (29406, [64; 52; 84; 0; 148; 91]);
   (29408, [199; 7; 71; 190; 126; 0; 64; 52; 3; 116; 143; 148; 135; 1; 62; 79; 192]);
   (29409, [0; 53; 15; 25; 52]);
   (29417, [25; 96; 52; 29]);
   (29420, [52; 0; 25; 71; 7; 199; 15; 192; 143; 64; 56; 155; 4; 30; 20; 17; 1; 32; 148; 27; 153; 91; 70; 81; 116; 158; 94; 29; 180; 79; 159; 156]);
   (29421, [0; 4; 194; 62; 64; 25; 15]);
   (29422, [25; 217; 89; 30; 155; 94; 91; 218; 153; 96; 116; 160; 158; 29; 20; 143; 120]);
   (29423, [64; 205]);
   (29424, [0; 148; 20; 155]);
   (29425, [89; 116; 218; 42; 25; 120; 79; 153; 95; 143; 94]);
   (29426, [251; 89; 148]);
   (29427, [89]);
   (29428, [25; 251]);
   (29431, [251]);
   (29432, [89; 25; 153; 143; 91; 155]);
   (29434, [251]);
   (29435, [251; 155; 25]);
   (29436, [217; 89; 25; 15; 1; 91; 143; 153; 3; 30; 0; 94; 148; 155; 96; 158]);
   (29441, [89; 251]);
   (29443, [205]);
   (29450, [89; 91; 251]);
   (29454, [25; 116; 89; 218; 52; 153; 246; 91; 120; 155; 31; 56; 143; 84; 148]);
   (29461, [25]);
   (29462, [0; 1]);
   (29463, [252; 94; 158; 202; 29; 155; 91]);
   (29467, [199; 7; 64; 0; 52; 25; 91; 192; 143; 148; 43; 1; 65; 155; 89; 56; 30; 180; 67; 31]);
   (29468, [244; 52; 56; 116; 160; 91; 79; 143; 20; 93; 120]);
   (29469, [15; 52; 126; 7; 201; 25]);
   (29470, [25]);
   (29473, [251]);
   (29474, [25; 148; 20]);
   (29477, [52; 3; 64]);
   (29481, [89; 25; 62; 153; 155; 91]);
   (29482, [217; 25; 89; 116; 153; 91; 32; 160; 155; 143; 148; 20; 107; 43; 17]);
   (29483, [217; 89; 25; 244; 91; 96; 30; 155; 148; 52; 20; 143; 153; 15; 159]);
   (29484, [89; 205]);
   (29486, [89; 244; 155; 52; 116; 153; 91; 29; 25; 30; 159; 79; 143; 180; 148; 20]);
   (29489, [205]);
   (29492, [218; 25; 89; 32; 153; 155; 91; 116; 143; 20; 79; 107; 43; 148; 15; 180; 30]);
   (29495, [91; 205; 155]);
   (29502, [64; 79; 205]);
   (29503, [218; 89; 25; 91; 153; 143; 79]);
   (29517, [205]);
   (29520, [25; 15; 153]);
   (29522, [205; 91]);
   (29527, [64; 251]);
   (29536, [25; 143]);
   (29548, [251; 25]);
   (29549, [89; 205; 153]);
   (29551, [251; 32]);
   (29566, [205; 89; 25]);
   (29572, [27; 155; 192; 25; 91; 30; 0; 143; 156; 79; 15; 89; 153]);
   (29575, [89; 244; 52; 7; 96; 116; 64; 68; 91; 153; 155; 81; 84; 0; 148; 71; 65; 160; 25; 20; 15; 143; 120]);
   (29577, [91; 25; 155; 217; 27; 30; 89; 32; 143; 79; 15; 93; 96; 29; 52; 153; 156; 158; 20; 94; 157; 92; 148; 81; 159; 160]);
   (29579, [27; 219; 25; 89; 93; 91; 155; 96; 153; 28; 116; 30; 158; 159; 148; 143; 94; 79; 20; 160; 84; 15; 92; 29; 32; 17; 156; 171; 43]);
   (29582, [251]);
   (29585, [89; 91; 205; 96; 79; 155]);
   (29590, [214; 91; 22; 155; 86]);
   (29595, [91; 27; 219; 155; 158; 25; 30; 93; 29; 32; 153; 96; 94; 160; 157; 159]);
   (29602, [251; 155; 91]);
   (29609, [244; 25; 52; 180; 116; 89; 15; 64; 143; 160; 128; 91; 153; 20; 155; 32; 56]);
   (29611, [25; 155; 32; 89]);
   (29614, [219; 91; 155; 92; 64]);
   (29615, [25; 17; 244; 120; 89; 52; 148; 91; 94; 153; 30; 32; 68; 79; 155; 158; 160; 96; 159; 20; 106; 145; 43; 132; 84; 31; 143; 92]);
   (29616, [116; 43; 25; 236; 52; 42; 56; 4; 7; 153; 79; 120; 145; 91; 148; 15; 155; 132; 81; 126; 31; 159; 84; 143; 158; 0; 180; 160; 20; 89]);
   (29618, [91; 155; 0; 219; 143; 15; 92]);
   (29619, [25; 153]);
   (29623, [52]);
   (29626, [91; 218; 89; 25; 155; 92]);
   (29627, [25; 209; 30; 153; 29; 20; 148; 159; 32; 160; 91; 17; 31; 56]);
   (29632, [89; 93; 29; 153; 30; 32; 158; 157; 25]);
   (29634, [92]);
   (29640, [205; 89; 93; 158; 155; 91]);
   (29641, [91; 219]);
   (29642, [25; 94; 160; 116; 92; 155; 157; 29; 93; 153; 79; 158; 15; 143]);
   (29645, [91; 0; 25; 52; 218; 68; 155; 30; 246; 148; 89; 32; 15; 153; 79; 143; 29; 93; 64; 56; 132; 92; 96]);
   (29647, [91; 155; 205]);
   (29648, [25]);
   (29649, [64; 79; 143; 251; 91]);
   (29657, [25; 205; 91; 30; 155]);
   (29662, [32; 89; 29; 30]);
   (29664, [89; 218; 30; 25; 91; 153; 32; 209; 17; 96; 155; 158; 160; 79; 159; 15; 95; 94; 143; 132; 84; 148; 81; 93; 31; 92]);
   (29669, [89; 205]);
   (29671, [155; 205; 91; 153]);
   (29673, [91; 205; 52; 32]);
   (29677, [158; 217; 25; 116; 89; 153; 27; 86; 120; 91; 160; 42; 148; 32; 52; 96; 155; 94; 30; 214; 79; 93; 29; 159; 102; 43; 81; 15; 17; 20; 68; 117; 157; 0]);
   (29678, [155]);
   (29682, [205; 30; 91]);
   (29699, [89; 25; 217; 153; 116; 184; 91; 159; 160; 158; 96; 94; 120; 155; 81; 20; 84; 95; 32; 180; 171]);
   (29701, [89; 143; 30; 15; 92; 153; 190; 62]);
   (29702, [89; 25; 120; 116; 153; 52; 64; 217; 159; 148; 244; 91; 79; 94; 84; 15; 143; 155; 160; 81; 145; 93; 132; 158; 102; 20; 56; 29; 184; 27; 71; 180; 30; 32; 65; 0; 7; 96; 31; 128; 92; 17; 4]);
   (29705, [25; 30; 32; 155; 153]);
   (29706, [205]);
   (29711, [91; 205; 155; 89]);
   (29712, [64; 194; 0; 25; 67; 91; 155]);
   (29722, [219; 91]);
   (29723, [205; 91; 94; 155; 30]);
   (29730, [52; 244; 116; 155; 91; 79; 20; 180; 143]);
   (29733, [25]);
   (29734, [155; 91; 219; 96]);
   (29736, [91; 205; 155]);
   (29738, [91; 155; 205; 153; 15; 143; 92; 93]);
   (29740, [91; 205; 155]);
   (29742, [91; 205; 155]);
   (29744, [91; 205; 155]);
   (29747, [91; 93; 29; 155; 219; 15; 158; 160; 25; 94; 157; 92]);
   (29748, [89; 217; 91; 25; 153; 158; 116; 155; 96; 29; 15; 79; 94; 84; 148; 30; 92; 143; 157; 28; 93; 99]);
   (29749, [25; 30; 148]);
   (29750, [89; 251; 153; 158; 148]);
   (29756, [160; 91; 209; 30; 29; 219; 32; 155; 25; 218; 15; 27; 158; 143; 93; 153]);
   (29761, [91; 89; 251]);
   (29781, [25; 126; 160; 79; 15; 89]);
   (29783, [91; 205]);
   (29785, [89; 158; 25; 93; 29; 153; 94; 157]);
   (29786, [89; 153; 96; 251; 91; 25; 155]);
   (29787, [91; 155; 205]);
   (29788, [91; 219; 25; 155; 148; 92; 79; 143]);
   (29790, [30; 91; 209; 155; 27; 17; 158; 96; 25; 31; 29; 32; 160; 93; 64; 159; 218; 153; 157; 89; 92; 35; 116]);
   (29791, [218; 91; 155; 126; 93; 157; 62; 153; 52; 89; 29; 96; 158; 79; 94; 30]);
   (29805, [91; 205; 155]);
   (29808, [89; 153; 62; 25; 91; 0]);
   (29814, [91; 209; 155; 25; 32; 158; 30; 143; 15]);
   (29815, [251; 155; 91]);
   (29822, [91; 219; 155]);
   (29824, [62; 20; 148]);
   (29825, [205; 91; 155]);
   (29827, [89; 153; 148; 158; 84; 95; 160; 251; 91; 96]);
   (29831, [205; 91; 155; 25; 92]);
   (29835, [91; 205; 155; 116]);
   (29838, [25]);
   (29840, [91; 219; 153; 155]);
   (29852, [91; 219; 155; 89; 93]);
   (29854, [219; 91; 218; 25; 155; 143]);
   (29863, [89; 143; 94; 92; 79; 116; 30; 158]);
   (29864, [126; 148; 205; 84; 91]);
   (29865, [91; 219; 27; 155]);
   (29882, [217]);
   (29906, [91; 219; 155]);
   (29916, [89; 217; 25; 52; 158; 153; 94; 30; 29; 143; 79; 155; 15; 91; 32; 160; 159; 157; 93; 148]);
   (29918, [205]);
   (29920, [205; 25; 91]);
   (29922, [217; 86; 25; 15; 89; 148; 52; 79; 91; 227; 84]);
   (29923, [89; 227; 218; 25; 153; 68; 148]);
   (29924, [218; 25; 89; 153]);
   (29926, [86; 217; 27; 155; 25; 94; 158; 91; 52; 29; 89; 93; 99; 153; 157; 150; 214; 30; 143; 163; 160; 96; 32; 35; 244; 159; 62; 79; 148; 227; 15; 116]);
   (29934, [217; 30; 20; 148; 89; 15; 79; 155]);
   (29935, [209; 89; 30; 94; 91; 25; 158]);
   (29940, [205; 79]);
   (29942, [217; 25; 89; 86; 153; 4; 79; 91; 214; 102; 148; 116; 158; 160; 155; 96]);
   (29943, [89; 25; 218; 153; 96; 91; 84; 4; 0; 32; 155]);
   (29951, [205]);
   (29956, [27; 52; 219; 91; 155; 56]);
   (29965, [205]);
   (29967, [218]);
   (29969, [219; 91; 25]);
   (29971, [205]);
   (29976, [30; 25; 27; 52; 219; 143; 209; 116; 158; 29; 81; 246; 91; 148; 155; 0; 153; 145; 32; 15; 193; 120; 160; 64; 4; 93; 159; 31; 20; 17]);
   (29977, [205; 96; 89]);
   (29978, [7; 201; 38; 62; 52; 143; 148; 6; 64; 91; 134; 71; 79; 15; 4; 109; 25; 155]);
   (29980, [25; 192; 91; 0; 64; 62; 190; 155; 15; 143; 84; 89; 79; 32; 4]);
   (29983, [56; 116; 25; 89; 52; 244; 153; 91; 68; 20; 67; 148; 159; 143; 0; 79; 180; 120; 155; 27; 71; 64; 43; 15; 96; 171; 86; 160; 17; 93; 190; 126; 84; 7; 107; 81; 132; 145; 4; 102; 92; 158; 32; 94; 135; 150; 128]);
   (29989, [89; 153; 25]);
   (29992, [116; 226; 89; 52; 120; 25; 153; 68; 64; 71; 84; 7; 20; 56; 148; 155; 91; 94; 159; 95; 79; 96; 143; 102; 0; 15; 180; 160; 32; 156; 145; 184; 132; 31]);
   (29993, [244; 52; 25; 20; 91; 32; 56]);
   (29995, [91; 199; 155; 89; 94; 96; 160; 157; 29; 156]);
   (29996, [25; 209; 30; 155; 158; 91; 17; 32]);
   (29997, [244; 199; 6; 52; 91]);
   (30000, [217; 27; 89; 25; 91; 94; 155; 96; 116; 158; 148; 95; 30; 28; 42; 160; 153; 159; 93; 29; 20; 79; 84; 52; 81; 143; 17; 31; 92; 184; 56; 157]);
   (30001, [226; 6; 64; 89; 7; 153; 135; 27; 143; 116; 71; 155; 20; 98; 25; 148; 159; 84; 184; 91; 180; 15; 132; 158; 160; 92; 28]);
   (30002, [217; 25; 68; 89; 153; 91; 32; 155; 94; 22; 20; 160; 4; 116; 158; 244; 143; 214; 84; 215; 79; 150; 81; 30; 96; 29; 148; 31; 43; 17; 159; 28]);
   (30003, [52; 27; 244; 32; 116; 91; 25; 155; 86; 79; 56; 153; 30; 150; 96; 94; 31; 43; 209; 29; 160; 157; 28; 17; 81]);
   (30005, [25; 217; 89; 153; 116; 81; 120; 159; 56; 160; 4; 180; 148; 20; 96; 68; 52; 84; 32; 17; 145; 143; 95; 132; 91; 155; 15; 29; 158; 184; 31; 30; 43]);
   (30007, [25; 196; 91; 15; 20; 148; 153; 89; 17; 143; 155; 159; 52; 4; 160; 31]);
   (30008, [94; 89; 190; 126; 153; 25; 158; 92; 159; 93; 30; 160]);
   (30010, [94; 158; 27; 30]);
   (30011, [89; 244; 25; 116; 153; 52; 143; 15; 159; 91; 79; 155; 148; 84; 20; 32; 180; 132; 96; 120; 42; 68; 158]);
   (30014, [205; 25; 153; 160]);
   (30016, [205]);
   (30021, [64; 192; 0; 52; 15; 91; 27; 25; 116; 143; 1; 158; 62; 20; 56; 155; 92; 148; 79]);
   (30024, [227; 91]);
   (30027, [91; 205; 52]);
   (30028, [89; 217; 160; 153; 25; 148; 102; 29; 159; 116; 32; 211; 52; 68; 91; 96; 94; 132; 79; 155; 81; 42; 84; 30; 158; 4; 120]);
   (30030, [205]);
   (30031, [246; 52; 116; 143; 0; 79; 91; 15; 84; 180; 120; 89; 155; 25; 68]);
   (30036, [89; 218; 94; 91; 106; 155]);
   (30041, [52; 116; 244; 120; 25; 153; 155; 91; 148; 171; 30; 143; 56; 79; 20; 15; 94; 68; 158; 29; 89; 159; 32]);
   (30042, [25]);
   (30043, [205; 25; 155; 91]);
   (30044, [25; 89; 218; 81; 153; 116; 217; 52; 96; 32; 143; 91]);
   (30053, [89; 199; 116; 52; 153; 7; 120; 91; 71; 65; 64; 25; 158; 79; 15; 143; 155; 93; 94; 30; 20; 148; 84; 29; 157]);
   (30054, [227; 218; 89; 91; 25]);
   (30058, [86; 227; 25; 30; 94; 71; 116; 107; 153; 143; 158; 84; 91; 79; 155; 150; 32; 159; 214]);
   (30066, [209; 32; 158; 91]);
   (30068, [91; 89; 205; 43; 155; 143]);
   (30072, [25; 218; 116; 52; 15; 143]);
   (30073, [30]);
   (30079, [205; 25; 96; 91; 93; 158; 155]);
   (30083, [205; 91]);
   (30086, [94; 25; 106; 158; 89; 91; 209; 159; 79; 153; 143; 160; 116; 155; 81; 148; 84]);
   (30091, [205]);
   (30095, [52; 248; 246; 64; 89; 25; 0; 56; 91; 30; 143; 20; 126; 79; 153; 15; 145; 190; 62; 155; 116; 17; 84; 29; 32]);
   (30097, [116; 71; 25; 64; 52; 153; 246; 148; 79; 218; 89; 84; 190; 126; 91; 143; 120; 15; 20; 155; 67]);
   (30100, [89]);
   (30102, [25]);
   (30103, [116; 89; 25; 153; 52; 246; 120; 148; 84; 81; 160]);
   (30105, [25; 148; 153; 190; 62; 155; 143]);
   (30106, [64; 205; 67; 65; 153]);
   (30109, [25]);
   (30111, [25; 89; 153]);
   (30112, [89; 205]);
   (30113, [89; 205; 153]);
   (30115, [205; 89; 25]);
   (30116, [217; 89; 25; 116])].
Definition pos_chars_14 : list (char * list N) :=
  [(30117, [25; 143]);
   (30123, [25; 120; 116; 153; 89; 218; 84; 159]);
   (30124, [89; 251]);
   (30126, [89; 217; 25; 143; 15; 79; 153; 160]);
   (30127, [0; 244; 25; 116; 52; 155; 62; 190; 84; 148; 143; 89; 153]);
   (30128, [25]);
   (30129, [25; 89; 217; 153]);
   (30130, [0; 192; 52; 143; 20; 25; 15; 79; 1]);
   (30131, [25; 89]);
   (30132, [89; 205]);
   (30133, [89; 25; 79]);
   (30136, [89; 251]);
   (30137, [89; 25; 180; 153]);
   (30140, [25; 244; 116; 192; 64; 52; 0; 126; 143; 153; 190; 84; 3; 56]);
   (30141, [89; 205]);
   (30142, [25; 218; 153; 89; 52; 143; 91; 148; 7; 15; 126; 79; 201; 1; 159; 160; 194]);
   (30146, [217; 116; 89; 91]);
   (30147, [251; 89]);
   (30148, [25]);
   (30149, [89; 25; 217; 116; 52; 153; 102; 143; 120; 91; 71; 56; 17; 84; 15; 0; 79; 145; 20; 62; 81; 148; 32; 190; 159; 4]);
   (30151, [89; 25; 218; 116; 96; 79; 84; 143; 81; 160]);
   (30152, [25; 143]);
   (30153, [56; 25; 153]);
   (30154, [52]);
   (30157, [143; 89; 79; 205]);
   (30162, [192; 64; 116; 0; 79; 89; 126; 84; 148; 62]);
   (30164, [25; 89; 32]);
   (30165, [25; 89; 218; 148; 91]);
   (30166, [205]);
   (30168, [89; 25; 116; 96; 153]);
   (30171, [89; 3; 192; 64; 52; 0; 116; 25; 143; 15; 120; 153; 62; 190; 71; 84; 20; 79; 7; 148; 91; 56; 67; 160]);
   (30174, [25; 89; 153]);
   (30178, [25; 153; 89]);
   (30179, [217; 89]);
   (30180, [25]);
   (30182, [25]);
   (30183, [120; 89; 116]);
   (30184, [25; 89]);
   (30186, [116; 251]);
   (30187, [89; 251; 153; 160]);
   (30192, [217; 116; 89; 25; 153; 15; 32]);
   (30193, [25]);
   (30196, [192; 62; 25; 52; 89; 190; 15; 79; 27; 126; 0; 143; 116; 91; 153; 148; 56; 155; 64; 193; 20]);
   (30201, [116; 218; 143; 120; 64; 89; 25; 153]);
   (30204, [25]);
   (30207, [116; 205; 25]);
   (30208, [205; 84; 89; 25; 116; 153]);
   (30209, [79; 246; 116; 64]);
   (30213, [251]);
   (30218, [25]);
   (30220, [89; 153; 25]);
   (30224, [251]);
   (30229, [205]);
   (30231, [205]);
   (30232, [205; 89; 25]);
   (30233, [0; 205]);
   (30235, [251]);
   (30239, [25; 244; 89; 153; 190]);
   (30240, [64; 194; 0; 180]);
   (30242, [25]);
   (30244, [89; 217; 84; 153; 25; 91; 218; 159]);
   (30246, [192; 0; 64; 25; 62; 126; 79; 190; 32; 89; 20; 143; 30; 4; 155; 84]);
   (30249, [89; 84; 126; 190; 153; 251; 79; 91]);
   (30250, [192; 64; 25; 190; 62; 52; 126; 116]);
   (30251, [52; 244; 89; 116; 25; 120]);
   (30256, [25]);
   (30259, [219]);
   (30260, [143; 25; 89]);
   (30261, [205]);
   (30264, [244; 25]);
   (30268, [205]);
   (30270, [217; 89; 116; 64; 153; 25; 84]);
   (30271, [205; 89; 91; 153]);
   (30272, [96; 251]);
   (30275, [25; 205]);
   (30284, [89; 25; 217; 120; 116; 153; 159]);
   (30285, [217]);
   (30292, [25; 32]);
   (30294, [218; 89; 25]);
   (30300, [153; 89; 205]);
   (30302, [25; 20]);
   (30307, [89; 217; 15]);
   (30315, [25; 91; 0; 246; 116; 190; 126; 153; 32]);
   (30319, [205; 64]);
   (30328, [215; 22; 91; 32; 155; 150]);
   (30331, [52; 244; 116; 25; 155; 91; 56; 30; 7; 32; 93; 94; 29; 143; 158; 64; 20; 96; 15; 79; 159; 153; 89; 157; 148; 190; 126]);
   (30333, [25; 27; 116; 192; 153; 89; 30; 126; 43; 91; 64; 155; 158; 62; 32; 52; 84; 190; 68; 148; 15; 94; 7; 143; 71; 79; 159; 0; 29; 28; 4; 20; 96; 92; 120; 93; 160; 65; 31; 170; 180; 56]);
   (30334, [150; 25; 22; 86; 153; 214; 155; 143; 15; 32; 30; 148; 20; 7; 96; 4; 160; 81; 91; 79; 145; 159; 84; 24; 158; 31; 17; 27; 88]);
   (30338, [89; 25; 148; 153; 52; 143; 30; 32]);
   (30340, [240; 102; 89; 126; 109; 71; 45; 84; 7; 148; 153; 96; 92; 158; 134; 116; 68; 25; 91; 30; 155; 79; 143; 135; 20; 160; 64]);
   (30342, [199; 143; 91; 155; 15; 148; 29]);
   (30343, [25; 218; 89; 155; 91; 158; 30; 159; 153; 65; 79; 96; 32; 143; 27; 64; 157; 120; 0; 15; 148; 71; 52; 190; 94; 126; 28; 93; 31]);
   (30344, [52; 153]);
   (30347, [91; 94; 205; 30; 155; 158; 29; 92; 84]);
   (30350, [62]);
   (30353, [126; 62; 79; 143; 190]);
   (30355, [92; 32; 143; 15; 25; 0]);
   (30358, [209; 30; 25; 32; 81; 91; 17; 155; 158; 159]);
   (30361, [91; 126; 205; 155]);
   (30372, [205; 91]);
   (30382, [25; 89; 217; 27; 153; 64; 148; 116; 155; 12; 84; 91; 29; 143; 15; 96; 79; 20; 93; 157; 68; 30; 158; 0; 94; 160; 180; 32; 120]);
   (30385, [89; 244; 25; 217; 52; 91; 62; 79; 96; 190; 116; 143]);
   (30386, [52]);
   (30388, [217; 244; 52; 25]);
   (30399, [89; 251; 91; 155]);
   (30402, [89; 205; 155; 30]);
   (30405, [227; 89; 218; 91; 25]);
   (30406, [25; 89; 158; 217; 227; 86; 171; 94; 30; 84; 91; 143; 155; 126; 148; 116; 153; 52; 96]);
   (30408, [25; 153; 246; 155; 91; 64; 84; 148; 126; 52; 116; 62; 190; 32; 30; 4; 79; 89; 143; 132; 96; 120; 160]);
   (30410, [89; 153; 71; 116; 91; 27; 180; 64; 219; 155; 25; 30; 143; 32; 120; 84; 79; 7; 218; 148; 29; 52; 201; 20; 94; 246; 81; 160; 158; 126; 96; 15; 156; 171]);
   (30413, [205]);
   (30414, [35; 62; 32; 150; 148; 22; 143]);
   (30415, [227; 86; 89; 153; 96; 214; 155]);
   (30416, [217; 25; 89; 30; 153; 17; 116; 96; 91; 52; 158; 148; 155; 32; 79; 29; 143; 56]);
   (30417, [56; 89; 25; 145; 209; 52; 155; 91; 159; 153; 218; 246; 30; 81; 17; 116; 120; 160; 32; 15; 31; 158]);
   (30418, [89; 227; 25; 86; 218; 4; 214; 153; 96; 155; 102]);
   (30420, [89; 25; 143; 32]);
   (30422, [244; 116; 89; 153; 27; 25; 91; 52; 143; 29; 155; 30; 92; 94; 93; 84; 158; 15; 148; 28; 32; 120; 96]);
   (30423, [246; 52; 89; 25; 120; 56; 116; 79; 143; 153; 20; 160; 15]);
   (30424, [89; 227; 116; 153; 52; 25; 42; 86; 158; 27; 91; 71; 30; 56; 120; 143; 155; 148; 96; 214; 29; 79; 15; 0; 94; 84; 160; 93; 32; 43]);
   (30427, [244; 52; 64; 25; 27; 91; 96; 158; 4; 155; 126; 30; 43; 148; 68; 15; 159; 116; 20; 32; 143; 153; 160; 79; 84; 28; 93; 94; 29; 156]);
   (30431, [89; 81; 25; 153; 217; 116; 94; 95; 159; 84; 91; 218; 79; 160; 158; 120; 96; 52; 155; 143; 184]);
   (30437, [4; 25; 52]);
   (30446, [43; 89; 25; 218; 143; 79; 116; 52; 65; 15; 86; 64; 91; 153; 84; 148; 94; 158; 214; 117; 155; 20; 227; 68; 96; 120; 93; 30; 56]);
   (30447, [244; 52; 126; 190]);
   (30449, [30]);
   (30450, [25; 1; 218; 89; 0; 116; 153; 52; 246; 17; 15; 155; 56; 159]);
   (30452, [71; 1; 199; 52; 25; 116; 4; 30; 64; 143; 0; 91; 62; 15; 81; 126; 56; 155; 153; 20; 190; 32; 158; 148; 89; 31; 7; 79; 94; 17; 29; 96; 145; 159; 180; 132; 68]);
   (30456, [52; 7; 199; 0; 89; 71; 25; 143; 20; 116; 155; 91; 27; 15; 148; 153; 68; 134; 6; 64; 30; 96; 79; 158; 56; 120; 84; 32; 156; 160; 93]);
   (30457, [218; 116; 25; 180]);
   (30460, [244; 52; 116; 27; 91; 79; 25; 155; 143; 148; 96; 32; 120]);
   (30462, [67; 227; 25; 89; 91; 84; 79; 153; 160; 214; 86; 96; 158; 155]);
   (30465, [94; 217; 25; 89; 102; 159; 81; 116; 52; 4; 17; 42; 158; 0; 91; 95; 143; 93; 180; 79; 15; 32; 155; 153; 56; 145; 120; 20; 156; 84; 148; 64; 160]);
   (30468, [246]);
   (30471, [205; 91]);
   (30472, [79; 143; 251]);
   (30473, [25; 217; 91; 143; 89; 15; 158; 116; 180; 94; 155; 148; 30; 42; 79; 153; 84]);
   (30475, [244; 52; 116; 109; 25; 64; 84; 79; 148; 20; 56; 70; 143; 134; 180; 15; 91; 155; 89]);
   (30477, [244]);
   (30489, [94; 158; 205]);
   (30490, [218]);
   (30495, [7; 199; 25; 0; 65; 91; 116; 155; 64; 153; 27; 96; 71; 148; 143; 15; 89; 20; 68; 79; 160; 32; 70; 190; 29; 4; 120; 93; 126; 84; 62; 135; 158; 52; 128; 159; 31; 92; 157]);
   (30496, [116; 246; 120; 153; 91; 84; 171; 148; 79; 94; 89; 30; 155; 92; 160; 25; 15]);
   (30498, [205]);
   (30502, [205; 143; 116]);
   (30504, [244; 52; 143; 20]);
   (30505, [52; 246; 79; 116; 25; 143; 84; 91]);
   (30508, [116]);
   (30509, [219; 155]);
   (30511, [244; 190; 126; 52; 91; 155]);
   (30517, [205; 89]);
   (30518, [89; 218; 84; 143; 116]);
   (30519, [89; 25; 52; 56; 143; 79]);
   (30520, [25; 89; 116; 143]);
   (30522, [52; 116; 246; 91; 155; 79]);
   (30524, [25; 217; 43; 86; 89; 42; 71; 52; 116; 64; 148; 153; 143; 7; 84; 180; 79; 171; 20; 15; 0; 32; 91; 155; 160; 107; 214; 128; 158; 68; 4; 159]);
   (30528, [243; 116; 98; 70; 52; 84; 0; 64; 148; 7; 25; 86; 89; 102; 71; 180; 153; 143; 124; 65; 60; 109; 214; 79; 160; 155; 56; 62; 190]);
   (30529, [244; 71; 135; 25; 79; 155; 143; 91]);
   (30531, [244]);
   (30535, [246; 116]);
   (30544, [116; 148; 205; 91]);
   (30545, [89; 205; 25]);
   (30554, [15; 52; 205; 29]);
   (30555, [89; 79; 71; 218; 91; 155; 96; 25; 148]);
   (30561, [244; 52; 116; 25; 120; 56; 84; 91; 32; 15; 153]);
   (30562, [219; 30; 91; 116; 251]);
   (30563, [89; 120; 160; 246; 52; 153; 25; 159; 91; 56; 155; 81; 96]);
   (30565, [15; 251; 20]);
   (30566, [194; 64; 25; 155; 20; 143; 91; 84; 190; 79; 120; 126; 160]);
   (30568, [246; 116; 143; 148]);
   (30571, [25; 79; 153; 32; 89]);
   (30572, [116; 244; 120; 155; 79]);
   (30585, [116; 79; 244; 84; 15; 246; 148; 143; 153; 155]);
   (30589, [79; 143; 205]);
   (30590, [25; 89; 153; 160]);
   (30591, [0; 92; 29; 157; 148]);
   (30592, [205]);
   (30596, [52; 244; 32; 25; 91]);
   (30597, [244; 52; 91; 155; 143]);
   (30604, [52; 180; 25]);
   (30605, [205]);
   (30606, [244; 155; 25; 52; 143; 148; 153; 89; 248; 116; 20]);
   (30609, [52; 143]);
   (30610, [244; 116; 148; 52; 15; 143]);
   (30623, [244; 52]);
   (30624, [20; 52; 15]);
   (30626, [205]);
   (30629, [244; 52; 89; 227; 248]);
   (30631, [244; 52; 116; 84; 91; 128]);
   (30633, [52; 143; 148; 79]);
   (30634, [244; 143; 52; 190; 126; 153; 180; 64]);
   (30636, [43; 150; 107; 15; 148; 143; 171; 71; 7; 20; 25]);
   (30637, [52; 25]);
   (30640, [116; 205; 153]);
   (30643, [25; 116; 153]);
   (30645, [246]);
   (30651, [153; 246; 89; 52; 143; 15; 91; 79; 155; 84; 25; 56]);
   (30653, [205]);
   (30655, [27; 219; 28; 91; 155; 25]);
   (30663, [52]);
   (30669, [0]);
   (30679, [52; 116]);
   (30683, [3; 217; 25; 148; 89; 143; 91; 155; 153; 79; 219]);
   (30684, [0; 246; 91; 64; 155; 52; 116]);
   (30690, [218; 25; 91; 15; 143; 79; 52; 89]);
   (30691, [252; 79; 91; 45]);
   (30693, [52; 116; 25; 244; 89; 0; 143; 79; 153; 91; 155; 84; 148; 64; 120; 20; 15; 56; 180; 159; 92; 158; 94; 4; 31; 30; 32]);
   (30697, [89; 25; 218; 91; 190; 126; 84; 79; 160; 4; 64; 155; 143]);
   (30699, [52; 219; 0; 27; 56; 15; 25; 91; 4; 194; 32; 155; 64]);
   (30700, [25]);
   (30701, [4; 192; 25; 116; 0; 62; 52; 126; 89; 145; 190; 79; 64; 153; 143; 15; 148; 132; 35; 32; 180; 96; 84; 81; 155; 160; 17; 56]);
   (30702, [192; 244; 64; 25; 0; 153; 62; 52; 89; 190; 4]);
   (30707, [25; 89; 218; 27; 91; 30; 17; 153; 155; 145; 158; 94; 217; 171; 159; 143; 96; 32; 209; 31; 79; 116; 43; 148; 4; 15; 160; 52; 28; 120; 93; 84; 132; 92; 81; 20; 29]);
   (30710, [205; 94; 158; 91; 159]);
   (30712, [25; 153]);
   (30717, [25; 32]);
   (30718, [153; 89; 25; 160; 30]);
   (30719, [25; 89; 217; 153; 116; 148; 81; 68; 17; 96; 120; 94; 52; 4; 145; 155; 91; 102; 95; 159; 158; 20; 84]);
   (30720, [30; 205; 91]);
   (30721, [89; 25; 244; 71; 153; 116; 84; 52; 227; 148; 158; 120; 81; 30; 160]);
   (30722, [25; 217; 89; 153; 143; 91; 32; 96; 68; 160; 94; 158; 116; 155]);
   (30729, [225; 155]);
   (30732, [244; 116; 52; 68; 25; 84]);
   (30733, [244; 52; 25; 116; 56; 15; 148; 143]);
   (30737, [205]);
   (30738, [25]);
   (30740, [56; 25; 52; 17; 89; 244; 120; 159; 116; 153; 145; 81; 91; 32; 42; 155; 160; 158; 4]);
   (30742, [25; 217; 89; 91; 153; 116; 32; 143; 155; 96; 4; 148]);
   (30743, [251; 25]);
   (30744, [244]);
   (30746, [218; 89; 155; 25; 91; 158]);
   (30748, [205; 96; 89; 91]);
   (30749, [25]);
   (30751, [25]);
   (30755, [244; 89; 25]);
   (30757, [143; 218; 52; 56; 155; 91; 15]);
   (30758, [205; 89; 91]);
   (30759, [25; 218; 89; 91]);
   (30761, [205]);
   (30764, [25; 205]);
   (30765, [246; 116; 143; 94; 25; 120]);
   (30768, [225; 91; 155]);
   (30772, [52; 244; 120; 116; 25; 153; 143; 15; 0; 93; 56; 79; 20; 155; 148; 62; 190; 91; 84; 30; 180; 43; 89; 159]);
   (30775, [217; 25; 91; 89; 153; 20]);
   (30776, [244; 52; 15; 145; 148]);
   (30777, [205]);
   (30778, [218; 116; 246; 91; 155; 120; 25]);
   (30779, [244; 158; 94; 32; 91; 155; 25; 30]);
   (30780, [217; 96]);
   (30782, [25; 89; 153; 116])].
Definition pos_chars_15 : list (char * list N) :=
  [(30784, [89; 153; 218; 84; 148; 91; 116; 155; 25; 159]);
   (30789, [217; 25; 89; 32; 153; 96; 160; 17; 158; 91]);
   (30791, [30; 25]);
   (30796, [244]);
   (30798, [205; 91]);
   (30800, [205]);
   (30802, [217; 96; 25]);
   (30805, [25; 194; 91; 64; 155; 0; 93; 15; 20; 158]);
   (30806, [205; 30; 91]);
   (30807, [251]);
   (30813, [25; 217; 89; 153; 20; 52; 160; 32; 155; 96; 244]);
   (30826, [205]);
   (30827, [25; 217; 52; 89; 116; 153; 160; 32; 96; 91; 30]);
   (30828, [192; 25; 64; 52; 7; 20; 148; 153; 0; 62; 81; 116; 145; 4; 143; 126; 32; 56; 91; 79; 31; 159]);
   (30829, [251]);
   (30830, [52; 64; 65; 1; 199; 153; 71; 0; 25; 129; 79; 30; 148; 135; 91; 20; 7; 180; 17]);
   (30839, [217; 244]);
   (30844, [217; 25; 89; 153; 91; 96; 32; 160; 155]);
   (30855, [205; 89]);
   (30857, [25]);
   (30860, [64; 190; 126; 116; 71; 25; 15; 143; 29; 120; 30; 148]);
   (30861, [89; 116; 244; 153; 0; 52; 68; 15; 143; 180; 148; 20; 79; 160]);
   (30862, [116; 25; 192; 244; 64; 143; 52; 79; 89; 153; 96; 155; 15; 190; 126; 32; 120; 67; 160; 62]);
   (30865, [89; 217; 25; 91; 132; 96; 79; 155; 94; 143; 158; 30; 116]);
   (30867, [205; 89; 155]);
   (30871, [227; 86; 89; 25; 153; 214; 158; 217; 155; 148; 91; 143; 160; 84; 32; 116]);
   (30872, [217; 25; 32; 153; 96; 160]);
   (30874, [205; 91; 158; 155]);
   (30875, [205; 89; 153]);
   (30876, [116; 251; 64]);
   (30879, [218; 227; 89; 25; 155; 153; 91]);
   (30881, [89; 251]);
   (30883, [25; 91; 89; 218; 30; 158]);
   (30885, [205]);
   (30887, [218; 155; 25; 27; 62; 143; 91; 89; 194; 30; 64; 20; 148; 32; 94; 126]);
   (30896, [52; 244; 56; 116; 7; 180; 20; 148; 25; 91; 153; 155]);
   (30897, [89; 217; 25; 153; 84; 20; 52; 160; 184; 32; 96; 159; 244; 79; 120]);
   (30898, [205; 25]);
   (30899, [217; 25; 89; 153; 96; 52; 32; 218; 84; 160]);
   (30900, [89; 84; 153; 25; 116; 180]);
   (30905, [205]);
   (30910, [244; 25; 52; 56; 30; 153; 91; 160]);
   (30913, [25; 153; 218; 89; 52; 148; 30; 32; 96; 56; 155; 116; 132; 4; 158; 81]);
   (30917, [214; 227; 89; 86; 143; 217; 116; 52; 244; 29; 25; 56; 91; 30]);
   (30922, [91; 219; 143; 0; 92; 155; 15]);
   (30923, [56; 116; 79; 143]);
   (30928, [218; 25; 91; 143; 79; 155; 29; 30]);
   (30932, [205; 89; 91]);
   (30933, [244; 52; 190; 62; 180; 25; 148]);
   (30937, [89; 25]);
   (30952, [116; 244; 52; 25; 153; 64; 89; 120; 56; 143; 32; 62; 190; 148; 79; 160; 15; 155; 84; 4; 20; 158; 96]);
   (30956, [218; 91; 89; 155]);
   (30962, [89; 251]);
   (30964, [227; 30]);
   (30967, [25; 217; 32; 89; 153; 56; 96; 91; 160; 155; 17; 4]);
   (30970, [89; 25; 32; 153; 160; 158]);
   (30971, [30]);
   (30977, [217; 89; 25; 91; 94; 116; 155; 30]);
   (30981, [205]);
   (30995, [89; 251]);
   (31006, [251]);
   (31012, [251]);
   (31028, [79; 116; 120; 251]);
   (31034, [116; 89; 52; 120; 153; 246; 56; 25; 91; 148; 143; 4; 160; 155; 79; 20; 84; 158; 29]);
   (31036, [25; 217; 89; 116; 91; 155; 96; 3; 52; 64; 153; 143; 79; 15; 148; 43; 120; 68; 30; 84; 180; 93; 171; 94; 32; 65]);
   (31038, [25; 89; 217; 95; 153; 56; 20; 159; 148; 17; 84; 91; 31; 81; 94; 116; 102; 155; 93; 184; 145; 158; 96; 30; 120; 180; 4; 160; 92; 32]);
   (31040, [116; 205; 91; 153; 155; 25]);
   (31041, [30; 27; 219; 91; 25; 155; 28]);
   (31046, [251]);
   (31048, [52; 246; 218; 155; 91; 32; 4]);
   (31049, [89; 218; 91]);
   (31059, [205]);
   (31062, [25; 89; 91; 27; 153; 219; 155; 218; 93; 56; 116; 28; 20; 143; 94; 79; 148; 15; 158; 29; 30; 120; 156; 92; 160]);
   (31063, [205; 89; 91]);
   (31066, [91; 155; 205; 84; 116; 157]);
   (31067, [52; 246; 25; 143; 32]);
   (31068, [205; 160; 91; 93; 158; 155]);
   (31069, [244; 52; 116; 27; 56; 91; 25; 155; 93; 89; 28; 158; 94; 30; 153]);
   (31070, [25; 89; 217; 0; 153; 20; 143; 116; 91; 148; 32; 15; 27; 30; 79; 155; 64; 52; 96; 84; 160; 62; 158; 31; 190; 56; 94; 4; 93; 180; 157; 159; 65; 29]);
   (31071, [79; 143; 116; 205; 89; 64]);
   (31072, [218; 25; 91; 94; 89; 155]);
   (31074, [205; 25]);
   (31077, [91; 155; 219; 89; 126; 153; 0; 218; 30; 64; 94; 143; 92; 27; 194; 32; 96; 160; 158; 28; 148; 20; 79; 116; 93; 25]);
   (31079, [89; 205]);
   (31080, [89; 25; 217; 116; 153; 86; 120; 214; 84; 79; 148; 91; 52; 158; 159]);
   (31085, [244; 52; 25; 116; 155; 248; 56; 91; 84; 89; 120]);
   (31087, [93; 91; 205; 155; 92]);
   (31095, [116; 246; 52; 25; 56; 153; 155]);
   (31096, [217; 89; 25; 79; 143; 116; 15; 84; 52; 148; 20; 153]);
   (31098, [155; 91; 205]);
   (31104, [52; 116; 25]);
   (31105, [116; 52; 71; 244; 25; 153; 120; 79; 89; 56; 148; 143; 91; 155; 68; 30; 160; 180; 20; 145; 17; 32; 81; 171]);
   (31108, [91; 89; 155; 27; 219; 218; 30; 25; 84; 156; 79; 94; 96; 153]);
   (31109, [218; 25; 89; 91; 116; 52; 155; 153; 158; 32; 30]);
   (31114, [205]);
   (31119, [30; 155; 217; 25; 64; 27; 91; 32; 96; 158; 89; 94; 116; 159; 31; 93; 120; 29; 79; 153; 84; 143; 157; 15; 17; 20; 156; 52; 28; 92; 148; 160; 0]);
   (31143, [93; 155; 91; 205; 96; 68; 84; 89]);
   (31155, [192; 155; 91]);
   (31161, [27; 91; 219; 96; 30; 155; 148; 92; 94]);
   (31162, [94; 158; 91; 205; 153; 155; 160]);
   (31163, [52; 244; 116; 89; 25; 153; 120; 143; 79; 56; 0; 30; 91; 15; 160; 64; 71; 155; 4; 84; 148; 20; 132; 32; 17; 145]);
   (31165, [89; 218; 25; 143; 91; 153; 120; 160]);
   (31166, [218; 25; 89; 91; 32; 155; 96; 148; 94; 4]);
   (31168, [64; 91; 194; 155; 25; 0; 79; 89; 96; 153; 30; 116; 62; 158; 143; 27; 126; 15; 156; 94; 29; 92; 20]);
   (31169, [25; 0; 194; 4; 7; 89; 52; 120; 56; 143; 153; 64; 116; 79; 68; 84; 148; 17; 71; 91; 81; 20; 15]);
   (31171, [192; 25; 126; 190; 52; 89; 153; 62]);
   (31174, [218; 89; 25; 68; 153; 91]);
   (31177, [155; 52; 246; 25; 91; 7; 15; 156; 143]);
   (31179, [89; 155; 236; 43; 91; 25; 27; 107; 171; 52; 156; 143; 15; 32; 20; 79; 148; 153; 145; 116; 180; 29; 84; 126; 30; 4; 160; 158]);
   (31181, [102; 86; 89; 25; 227; 214; 116; 52; 35; 99; 68; 148; 153; 27; 120; 84; 64; 79; 20; 81; 150; 15; 107; 91; 143; 160; 30; 180; 158; 17]);
   (31185, [25; 89; 217; 159; 91; 153; 27; 148; 96; 94; 30; 155; 160; 29; 93; 102; 81; 145; 4; 158; 17; 157; 32; 52; 68; 84; 143; 31; 116; 20; 79; 95; 64; 132; 15; 180; 92]);
   (31186, [217; 227; 214; 86; 25; 102; 99; 79; 89; 91; 143; 153; 116; 68; 155]);
   (31189, [89; 25]);
   (31192, [25; 64; 30; 218; 89; 116; 91; 209; 153; 155; 148; 190; 180; 52; 15; 126; 31; 20; 159]);
   (31199, [244; 52; 89; 25; 153; 116; 84; 148; 120; 160]);
   (31203, [89; 205; 143; 91; 15; 155]);
   (31204, [217; 89; 25; 153; 116; 96]);
   (31206, [27; 219; 30; 107; 43; 25; 91; 209; 160; 155; 17; 32; 94; 29; 28; 31; 158; 143; 20; 153; 15; 96; 92; 159]);
   (31207, [25; 217; 116; 153; 89; 244; 120; 180; 155; 91]);
   (31209, [25; 218; 91; 15; 155; 229; 160; 52]);
   (31211, [25]);
   (31213, [30; 205]);
   (31215, [89; 1; 116; 25; 52; 153; 244; 71; 120; 143; 91; 155; 84; 148; 56; 15; 20; 30; 93; 158]);
   (31216, [244; 52; 116; 89; 25; 64; 153; 155; 0; 143; 65; 15; 148; 91; 20; 120; 81; 29; 56; 30]);
   (31224, [89; 25]);
   (31227, [116; 56; 244; 52; 25; 120; 89; 79; 143; 155; 91; 15; 4; 159; 153; 148; 160; 32; 84]);
   (31229, [64; 89; 25; 79; 0; 143]);
   (31232, [0; 192; 25; 52; 64; 62; 71; 20; 148; 190; 79; 4; 30; 91; 15; 32; 89; 56; 155; 180; 143; 84; 116; 96; 218; 153; 160]);
   (31234, [205; 143]);
   (31235, [205; 89]);
   (31243, [89; 25; 153; 217; 27; 84; 68; 91; 116; 227; 86; 71; 52; 96; 159; 155; 148; 4; 132; 143; 160; 79; 120; 28; 81; 180; 92; 94; 15; 214]);
   (31245, [199; 7; 71; 52; 20; 15; 12]);
   (31246, [89; 25; 217; 116; 153; 81; 4; 145; 120; 159; 43; 17; 84; 79; 160; 31; 155; 68; 132; 96; 52; 32; 158]);
   (31252, [246; 64; 91]);
   (31255, [218; 25; 15; 89; 155]);
   (31258, [64; 0; 25; 153; 92; 89; 156; 20]);
   (31262, [89; 153; 91; 25]);
   (31264, [0; 192; 64; 91; 153; 143; 160; 25; 15]);
   (31267, [91; 205; 153]);
   (31283, [0; 64; 192; 25; 244; 7; 52; 116; 1; 20; 153; 190; 15; 4; 91; 62; 79; 126; 143; 32; 128; 155; 84; 132; 148]);
   (31287, [89; 205; 91; 30; 155]);
   (31289, [91]);
   (31291, [89; 25; 218; 148; 155; 159; 32; 116; 153; 91; 160; 180; 30; 81]);
   (31292, [89; 153; 27; 156; 25; 148]);
   (31293, [219; 52; 64; 25; 143; 158; 91; 116; 153; 84; 155; 56; 160; 79; 120; 81]);
   (31295, [89; 218; 25; 116; 153; 96; 81; 120; 84]);
   (31302, [32; 27; 29; 155; 91; 158; 64; 219; 209; 31; 94; 157; 160; 92; 65; 28; 93; 159; 30]);
   (31313, [251; 89; 91]);
   (31319, [217; 89; 25; 91; 20; 32; 155; 116; 153; 96; 93; 209; 171; 158; 52]);
   (31344, [205; 91; 155]);
   (31348, [89; 218; 227; 25; 52; 116; 143; 155; 79; 94; 132; 153; 158; 84; 15]);
   (31350, [120; 153; 7; 116; 159; 71; 246; 199; 89; 84; 143; 170; 64; 148; 52; 145; 91; 132]);
   (31351, [192; 25; 71; 79; 15; 0; 64; 126; 143; 67; 52; 153; 190; 84; 116; 20; 91; 81; 32; 148; 155]);
   (31352, [251; 89]);
   (31353, [25; 89]);
   (31354, [25; 89; 192; 153; 42; 106; 52; 120; 116; 0; 91; 159; 27; 4; 62; 143; 148; 7; 244; 79; 15; 20; 180; 126; 71; 84; 81; 145; 64; 56; 95; 17; 96; 32; 68; 31; 3; 30; 155; 160; 190; 158; 93; 157; 156]);
   (31359, [244; 52; 116; 25; 4; 79; 143; 15; 56; 153; 64; 20; 148; 84; 32; 120; 96]);
   (31360, [251; 25]);
   (31361, [1; 56; 0; 52; 25; 120; 199; 15; 30; 89; 143; 32; 116; 153; 7; 91; 96; 155; 79; 81]);
   (31363, [246; 116; 52; 153; 143; 15; 25; 20; 148; 120; 56; 89]);
   (31364, [192; 64; 7; 0; 89; 116; 62; 190; 79; 25]);
   (31366, [205]);
   (31368, [0; 15; 155]);
   (31373, [218; 25; 89; 116; 143; 79; 84]);
   (31377, [217; 25; 89; 91; 96; 94; 116; 158; 160; 153; 30; 120; 218]);
   (31378, [52; 0]);
   (31381, [251; 64; 143; 91]);
   (31382, [89; 217; 52]);
   (31383, [42; 25; 89; 218; 116; 96; 143; 91; 15; 227; 155; 79; 4]);
   (31384, [244; 0; 25; 116; 64; 91; 155]);
   (31388, [244; 116; 79; 52; 148]);
   (31389, [217; 89; 25; 0; 244; 153; 135; 52; 155; 94; 160; 148; 116; 20; 157; 84; 158; 143]);
   (31391, [89; 218; 25; 94; 153; 79]);
   (31392, [217; 25; 143; 89]);
   (31397, [52; 246; 153; 116; 143; 25; 91; 15; 79]);
   (31398, [27; 219; 89; 91; 153; 25; 158; 155; 143]);
   (31400, [244; 153; 25]);
   (31404, [205; 116]);
   (31405, [205]);
   (31411, [205]);
   (31423, [89; 153]);
   (31435, [116; 7; 244; 52; 25; 150; 155; 56; 91; 153; 35; 68; 143; 4; 27; 17; 30; 15; 43; 79; 22; 158; 96; 120; 32; 29; 20; 159; 184; 148; 132; 84; 93; 156; 89; 92; 160; 64; 28; 95; 180]);
   (31446, [244; 52; 25; 71; 143; 217; 148; 155; 79; 30]);
   (31449, [244; 89; 52; 25; 42; 86; 94; 95; 96; 102; 116; 153; 91; 132; 20; 84; 81; 214; 30; 17; 120; 155; 158]);
   (31454, [56; 25; 52; 246; 7; 91; 20; 155; 148; 116; 143; 153; 0; 71]);
   (31455, [71; 199; 7; 52; 30; 91; 116; 155; 143]);
   (31456, [89; 86; 91; 227; 27; 25; 102; 214; 79; 155; 116; 148; 120; 94; 30; 143; 153; 28; 158; 92; 96; 81; 4; 93; 84; 29]);
   (31459, [52; 91; 116; 246; 25; 145]);
   (31461, [89; 27; 25; 219; 43; 217; 91; 153; 155; 84; 148; 159; 96; 143; 158; 79; 160; 15; 20; 32; 93; 81; 171]);
   (31462, [205; 91]);
   (31469, [7; 116; 79; 89; 195; 15; 194; 52; 143; 64; 20; 91; 153]);
   (31471, [89; 244; 76; 25; 52; 86; 91; 43; 0; 190; 155; 71; 126; 68; 79; 30; 81; 148; 84; 116; 62; 32; 106; 153; 64; 27; 143; 180; 29; 93; 12; 214]);
   (31481, [25; 218; 89; 91; 155; 94; 79; 32; 153; 143; 158; 30; 29; 4; 20; 27; 180; 160; 217; 93]);
   (31482, [94; 91; 219; 27; 155; 153; 28]);
   (31485, [205; 143; 89]);
   (31487, [218; 89; 143; 25; 153; 79; 155; 148; 116; 160; 91]);
   (31491, [194; 52; 62; 91; 126; 155; 0; 153; 64]);
   (31492, [205; 116]);
   (31494, [89; 25; 153]);
   (31496, [205; 89; 91; 116]);
   (31498, [25]);
   (31499, [89; 217; 25; 79; 91; 96; 94; 30; 218]);
   (31503, [205; 91; 155; 143]);
   (31505, [244; 116; 25; 120; 91; 84; 62; 52; 64; 143; 89; 79; 148; 155; 15; 20; 153; 27; 180]);
   (31508, [25; 227; 89; 86; 102; 116; 62; 214; 71; 153; 143; 52; 160; 148; 30; 91; 155; 79; 20; 96; 15; 56; 84; 32]);
   (31509, [205; 155]);
   (31513, [217; 91; 25; 89; 155]);
   (31515, [217; 25; 89; 27; 91; 218; 155; 153; 116]);
   (31518, [246; 116; 91; 155]);
   (31520, [89; 91; 79]);
   (31524, [25]);
   (31525, [205; 155]);
   (31526, [52; 25; 89; 244; 116; 153; 27; 91; 96; 155; 143; 30; 56; 246; 84; 148; 219]);
   (31528, [192; 0; 64; 25; 20; 148; 15; 128; 91]);
   (31530, [219; 91]);
   (31531, [205]);
   (31532, [22; 214; 32; 43; 25; 91; 153; 20; 158; 89; 4; 159; 148; 150; 31; 30; 116; 96; 160; 93; 155; 86; 79; 29; 27; 94; 84; 71; 143; 24; 157]);
   (31534, [205; 91]);
   (31539, [205; 91; 148; 155]);
   (31544, [25]);
   (31546, [244; 89; 25; 91; 153]);
   (31548, [89; 52; 116; 244; 25; 217; 120; 0; 153; 15; 91; 218; 1; 155; 96; 20]);
   (31550, [205]);
   (31557, [251]);
   (31559, [205; 25; 91]);
   (31561, [237; 52; 45; 109; 68; 25; 116; 64; 86; 102; 153; 148; 214; 71; 4; 89; 88; 55; 56; 15; 62; 84; 132; 30; 20; 155; 79; 184; 159; 120; 160; 143; 93; 180; 32]);
   (31563, [89; 217; 25; 116; 15; 148; 143; 96; 160; 91; 0; 153; 32]);
   (31564, [91; 205]);
   (31567, [89; 218; 25; 153; 30; 155; 91]);
   (31568, [217; 89; 86; 25; 155; 227; 91]);
   (31569, [89; 153; 244; 116; 52; 84; 132; 56; 91; 79; 155; 159; 32; 31; 156]);
   (31570, [89; 227; 218; 25; 153; 4; 132; 148; 160; 91; 96; 158; 52; 30]);
   (31572, [116; 52; 244; 25; 56; 158; 94; 91; 120; 20; 84; 190; 126; 161; 97; 143; 153; 155; 180; 157; 96]);
   (31574, [89; 25; 91; 218; 52; 153; 116; 79; 56; 155; 84; 159; 96; 30; 143; 120; 160; 29; 157; 93]);
   (31576, [205]);
   (31578, [25; 15; 205]);
   (31579, [244; 52; 25; 56; 89; 155; 96; 116; 143; 180]);
   (31581, [89; 217; 153; 91; 79; 155]);
   (31584, [91; 155; 205; 30; 92]);
   (31598, [205; 89]);
   (31601, [155; 205; 91; 27]);
   (31602, [205; 25]);
   (31605, [25; 89]);
   (31607, [25; 89; 218; 153]);
   (31609, [52; 81; 153; 244; 25; 116; 155; 91; 143; 89; 79; 148; 56; 84; 159; 17]);
   (31611, [205]);
   (31614, [52; 244; 153; 116; 25; 89; 56; 84; 91; 120; 155; 160]);
   (31616, [0; 52; 7; 25; 217; 27; 89; 20; 91; 116; 143; 155; 62; 190; 219; 79; 4; 32; 28; 56; 64; 148; 30]);
   (31629, [244; 153; 89; 52; 96; 25]);
   (31632, [205; 91])].
Definition pos_chars_16 : list (char * list N) :=
  [(31635, [89; 92]);
   (31636, [89; 25; 81; 153]);
   (31637, [205; 89; 25; 143]);
   (31639, [116; 244; 52; 153; 89; 120; 71; 25; 84; 64; 20; 79; 159; 143; 132; 180; 91; 81; 68; 148; 56; 155; 15; 160]);
   (31644, [25]);
   (31645, [25]);
   (31649, [56; 70; 244; 89; 25; 120; 116; 52; 153; 159; 27; 148; 81; 145; 30; 91; 155; 17; 12; 96; 32; 84; 20; 160; 143; 79; 29; 15; 128; 28; 68; 71]);
   (31650, [251]);
   (31654, [205]);
   (31655, [205; 79]);
   (31656, [205]);
   (31657, [218; 25; 89; 91; 155]);
   (31658, [15]);
   (31659, [218; 116; 89; 91; 25; 155]);
   (31660, [25]);
   (31661, [217; 89; 153; 25; 120; 84; 91; 116; 143; 30; 159; 15; 79; 155; 148; 160; 158; 94; 20]);
   (31665, [89; 25; 227; 86; 153; 96; 116; 12; 143; 42; 4; 155; 214; 30; 32; 68; 17]);
   (31668, [25; 92]);
   (31681, [205; 94; 91; 89]);
   (31686, [218; 25; 209; 89]);
   (31687, [86; 227; 148; 214; 153; 89; 68; 25; 143; 102; 116; 91; 79; 84; 150]);
   (31692, [89; 251]);
   (31697, [79; 205]);
   (31699, [89; 25; 227; 218; 86; 153]);
   (31705, [218; 89; 158]);
   (31706, [205]);
   (31709, [25; 15]);
   (31713, [52]);
   (31717, [89; 251]);
   (31718, [89; 25]);
   (31722, [91; 205]);
   (31726, [25; 89; 209; 227; 116; 96; 153; 120; 42; 91; 95; 148; 17; 158; 160; 218; 159; 32; 145]);
   (31729, [25; 89; 143; 94]);
   (31735, [89; 217; 153; 68; 25; 91]);
   (31740, [205]);
   (31742, [89; 25]);
   (31751, [52; 218; 227; 99; 35; 62; 79; 91; 150; 86; 116; 89; 32; 25; 126]);
   (31755, [218]);
   (31756, [126; 62; 190]);
   (31759, [205]);
   (31766, [205]);
   (31775, [205]);
   (31782, [205]);
   (31783, [89; 217; 153; 25; 79; 96; 91]);
   (31786, [25; 89; 52; 160]);
   (31792, [30]);
   (31800, [116; 25; 120; 126; 190]);
   (31807, [218; 89; 25; 143; 155]);
   (31808, [205]);
   (31809, [89; 218; 143; 155; 148; 91]);
   (31821, [89; 218; 91; 25; 68; 27; 116; 159; 52; 153; 81; 64; 160; 79; 120]);
   (31859, [86; 227; 214; 99; 89; 27; 25; 158; 153; 155; 93; 91; 29; 30; 160; 157; 143; 32; 120; 116; 148; 94; 163; 96; 84; 159; 31; 15; 4; 79]);
   (31860, [244; 91]);
   (31867, [89; 227; 25; 102; 86; 52; 120; 68; 153; 214; 148; 79; 116; 91; 96; 143; 84; 4; 155; 20; 160; 30; 159]);
   (31868, [25; 153; 89]);
   (31869, [89; 218; 153; 25; 155; 116; 68; 91; 96]);
   (31881, [89; 25; 217; 52; 4; 153; 15; 116; 96; 91; 155; 79; 84; 160; 62; 143; 244; 32; 56; 120; 148]);
   (31889, [205; 89; 91]);
   (31890, [25; 89; 227; 86; 153; 214; 160; 148; 116; 91; 155; 20; 32; 94; 180; 96]);
   (31893, [89; 205; 96]);
   (31895, [192; 0; 25; 1; 52; 15; 71; 7; 79; 126; 89; 84; 4; 20; 64; 91; 148; 143; 62]);
   (31896, [25; 244; 52; 153; 0; 56; 32; 62; 68; 160; 190; 96]);
   (31900, [244]);
   (31901, [205; 89; 91]);
   (31902, [205]);
   (31903, [219; 89; 27; 91; 25; 153; 218; 79; 155; 29]);
   (31906, [205]);
   (31908, [209; 30; 25; 91; 155; 32; 160; 94; 17; 31; 145; 96]);
   (31909, [217; 89; 4; 143; 96; 84; 148; 116; 15]);
   (31914, [217; 25; 89; 153; 79; 116; 155]);
   (31918, [25; 217; 89; 153; 20; 81; 116; 17; 159; 91; 143; 79; 94; 158; 31; 155; 145; 160; 15; 120; 32; 148]);
   (31921, [89; 219; 153; 91; 155; 143; 79; 148; 160]);
   (31922, [0]);
   (31923, [25; 89]);
   (31929, [64; 71; 89; 153; 68; 155; 218; 91; 67]);
   (31932, [62; 126; 148; 84]);
   (31933, [25]);
   (31934, [25; 0; 192; 52; 89; 1; 15; 143; 116; 155; 153; 30; 91; 32; 96; 4; 20; 84; 79; 159; 160; 62; 120; 29; 56; 132; 145; 190; 31; 3]);
   (31937, [205]);
   (31941, [52; 116; 246]);
   (31943, [205]);
   (31944, [205]);
   (31946, [64; 0; 190; 244; 116; 126; 25; 89; 52; 143; 148; 62; 153; 84; 180; 15; 120; 56]);
   (31948, [25]);
   (31949, [25]);
   (31957, [89; 64; 218; 25; 96; 32]);
   (31958, [89; 25; 217; 116; 153; 91; 159; 160; 155; 32; 52; 20; 143]);
   (31959, [205]);
   (31961, [64; 192; 25; 153; 190; 126; 91]);
   (31964, [27; 52; 219; 89; 0; 25; 91; 56; 96]);
   (31967, [244; 0; 52; 79; 192; 190; 126; 25; 89; 15; 153; 32; 56]);
   (31968, [217; 244; 116; 25; 89; 160; 143; 155; 91; 96]);
   (31976, [25; 192]);
   (31983, [218; 25; 68; 194]);
   (31995, [89; 25; 244; 116; 150; 35; 148; 68; 84; 153; 22; 132; 91; 52; 20; 96; 95; 155; 32; 102; 42; 160; 159; 143; 4; 184; 56]);
   (32010, [0; 79; 194; 91]);
   (32032, [89; 217; 25; 91; 52; 84; 155; 64; 7; 96; 218; 153; 79; 71; 0; 94; 15; 116; 201; 192; 30; 158; 143; 157; 159; 148; 29; 160; 93; 43; 193]);
   (32034, [116; 27; 89; 91; 52; 7; 155; 219; 25; 120; 94; 30; 158; 209; 246; 153; 79; 64; 32; 93; 29; 218; 126; 143; 148; 84; 190; 157; 160; 62; 86; 15; 56; 31; 81; 96; 159; 171; 20]);
   (32039, [0; 71; 192; 116; 7; 52; 199; 1; 64; 56; 6; 25; 148; 84; 20; 15; 4; 89; 96; 62; 160; 91; 153; 155; 190; 143; 32; 159]);
   (32043, [25; 192; 27; 30; 155; 4; 91; 153; 32; 31; 64; 143; 89; 79; 20; 29; 68; 62; 159; 94]);
   (32047, [52; 116; 192; 244; 64; 84; 158; 62; 56; 126; 148; 3; 143; 91; 25; 153; 7; 120; 89; 79; 190; 0; 20; 65; 30; 159]);
   (32110, [155; 244; 89; 25; 52; 190; 62; 91; 116]);
   (32119, [205]);
   (32166, [30; 27; 219]);
   (32174, [251]);
   (32315, [116; 205; 91]);
   (32321, [52; 0; 64; 25; 217; 143; 15; 91; 155; 246; 30; 84; 20; 56; 153; 29; 32; 148]);
   (32327, [91; 226; 155]);
   (32386, [116; 205; 52; 91; 153]);
   (32411, [205]);
   (32416, [52; 25; 246; 84; 190; 126; 17; 56; 91]);
   (32417, [205; 155; 116; 91; 15]);
   (32418, [25; 192; 27; 89; 153; 91; 116; 155; 126; 32; 68; 30; 159; 84; 0; 148; 52; 62; 31; 17; 143; 96; 20; 190; 160; 4; 15; 79; 92; 145; 158; 132; 128; 56; 93; 94]);
   (32419, [29; 143; 89; 157]);
   (32420, [25; 89; 148; 218; 153; 0; 52; 20; 116; 96; 91; 15; 160; 95; 155; 159; 32]);
   (32421, [96; 251; 91; 155]);
   (32422, [199; 89; 116; 71; 56; 94; 52; 153; 29; 81; 25; 159; 126; 30; 158; 7; 143; 190; 64; 32; 91; 155; 120; 15; 184; 132; 148; 93; 84; 79; 27; 96; 160; 180; 157; 31]);
   (32423, [89; 68; 227; 64; 120; 116; 102; 25; 86; 153; 214; 84; 148; 159; 71; 81; 91; 143; 180; 160; 88; 184; 132]);
   (32424, [25; 15; 20]);
   (32425, [205]);
   (32426, [89; 25; 107; 52; 171; 27; 153; 91; 155; 219; 17; 96; 218; 180; 148; 160; 120; 88; 145; 158; 159; 79; 20; 116; 4; 84; 81; 29]);
   (32427, [153; 205; 89; 116; 155; 160]);
   (32428, [89; 218; 155; 25; 153; 68; 91; 30; 143]);
   (32429, [251; 79; 126; 148]);
   (32431, [192; 64; 0; 25; 91; 52; 7; 4; 116; 155; 153; 143; 32; 96; 120; 15; 156]);
   (32432, [25; 244]);
   (32433, [89; 217; 25; 116; 153; 91; 155; 120; 96; 32]);
   (32434, [217; 25; 91; 89; 153; 116; 155; 143; 92; 15; 148; 68]);
   (32435, [116; 52; 91; 244; 94; 27; 25; 158; 155; 32; 93; 89; 153; 96; 30; 209; 29; 17; 22; 157; 120; 143; 0; 160; 159; 95; 148; 150; 79; 31]);
   (32437, [52; 244; 116; 25; 7; 6; 15; 148; 153; 143; 93; 96; 64; 155; 79; 0; 91; 159; 198; 81; 120; 160; 20; 192; 32]);
   (32438, [89; 91; 251; 96; 79; 155; 15; 25; 153; 143; 84; 160; 64]);
   (32439, [71; 7; 89; 143; 0; 194; 79; 25; 52; 126; 15; 190; 62; 148; 153; 20; 1]);
   (32440, [89; 217; 25; 116; 153; 86; 96; 120; 143; 160; 15; 180; 32; 20; 214; 148; 84]);
   (32441, [89; 218; 153; 25; 91; 155; 15; 68; 96; 158; 160; 143]);
   (32442, [25; 81; 153; 52; 244; 68; 160; 89; 116; 96; 56; 91; 32; 30; 159]);
   (32445, [30; 89; 209; 25; 31; 84; 155; 29; 160; 159; 91; 157; 93]);
   (32446, [205; 91; 52; 143; 155]);
   (32447, [89; 217; 25; 153; 106; 86; 96; 81; 76; 132; 120; 84; 116; 68; 91; 148; 20; 42; 155; 214; 79; 4; 159; 95; 32; 160; 17; 143; 30; 158]);
   (32448, [89; 205; 155; 153]);
   (32449, [205; 89]);
   (32450, [205; 91]);
   (32451, [120; 244; 52; 64; 116; 89; 153; 27; 25; 143; 91; 0; 155; 56; 79; 30; 92; 148; 71; 158; 32]);
   (32452, [52; 120; 25; 89; 227; 20; 159; 86; 153; 148; 116; 214; 145; 217; 102; 4; 155; 35; 99; 81; 156; 91; 17; 95; 56; 150; 160; 22; 68]);
   (32453, [89; 25; 84; 32; 96]);
   (32454, [25; 192; 65; 64; 0; 153; 52; 62; 89; 71; 7; 158; 190; 143; 148; 132; 180; 20; 155; 56; 15; 79; 126; 116; 91; 32; 68; 160; 29; 27; 96; 30; 84]);
   (32455, [116; 89; 153; 95; 25; 244; 52; 68; 84; 96; 159; 160; 81; 91; 148; 56; 143; 30; 180; 155; 4; 132; 158; 184; 120; 29]);
   (32456, [71; 7; 25; 199; 52; 116; 22; 107; 27; 79; 143; 30; 91; 84; 153; 148; 150; 15; 120; 32]);
   (32457, [126; 190; 25; 89]);
   (32458, [244; 89; 52; 25; 190; 126; 116]);
   (32459, [205]);
   (32460, [79; 205]);
   (32461, [116; 30; 91; 155; 219; 153; 94; 158; 32; 25; 29; 27; 143; 89; 156; 31]);
   (32462, [116; 143; 91; 205; 153; 155]);
   (32463, [25; 71; 226; 34; 89; 56; 153; 52; 7; 116; 148; 68; 20; 143; 84; 159; 17; 155; 160; 27; 64; 81; 91; 96; 79; 15; 128; 31; 120; 158; 145; 30; 132; 0; 65; 171; 129; 156; 94; 32; 126; 28; 180]);
   (32464, [205]);
   (32465, [244; 52; 116; 25; 84; 132; 56; 32]);
   (32466, [25; 89; 217; 153; 91; 96; 155; 116; 190; 62]);
   (32467, [25; 52; 116; 244; 56; 64; 89; 153; 0; 143; 148; 20; 190; 62; 180; 91; 27; 155; 120; 160; 15; 145; 84; 81; 17; 79; 159; 158; 184; 93; 30; 32; 126; 96]);
   (32468, [251; 143; 89; 155]);
   (32469, [116; 244; 52; 25; 91; 89; 79; 155; 30; 153; 56; 143; 160; 84; 148; 20; 0]);
   (32471, [244]);
   (32472, [25; 116; 244; 52; 89; 120; 15; 143; 91; 153; 155; 56; 160; 159]);
   (32473, [226; 116; 52; 120; 25; 153; 143; 158; 148; 17; 56; 89; 155; 32; 79; 159; 91]);
   (32474, [0; 15; 20]);
   (32475, [196; 25; 91; 155; 94; 30; 158]);
   (32476, [89; 116; 244; 120; 153; 15; 25; 20; 180; 64; 52; 143; 155; 159; 91; 84; 148; 96; 132; 160; 4]);
   (32477, [7; 116; 199; 22; 52; 25; 0; 79; 94; 143; 84; 148; 20; 4; 15; 89; 56; 62; 64; 126; 43; 91; 150; 153; 180]);
   (32478, [244; 25; 153; 52; 15; 84; 227]);
   (32479, [89; 52; 56; 25; 244; 153; 84; 20; 159; 91; 64; 7; 71; 155; 116; 148; 160; 81; 107; 180; 15; 143; 17; 96; 31; 68; 79; 93; 132; 65; 32; 145; 30]);
   (32480, [205]);
   (32481, [205; 89; 91; 155; 96]);
   (32482, [217; 89; 25; 91; 93; 155; 153; 32]);
   (32483, [244; 89; 25; 52; 155; 91; 143; 32; 96; 15; 158; 148; 116; 153; 160; 56]);
   (32485, [30; 209; 52; 81; 155; 91; 29; 158; 93; 94; 25; 32]);
   (32486, [25; 153]);
   (32487, [52; 246; 71; 25; 155; 6; 56; 91; 120; 79; 116; 153; 143; 160; 15; 96; 43; 156; 84]);
   (32488, [205]);
   (32489, [89; 25; 91; 4; 218; 153; 84; 155; 30; 116]);
   (32490, [89; 153; 116; 218; 91; 155; 79; 180; 143; 25; 84; 107; 148]);
   (32491, [52; 25]);
   (32493, [116; 117; 64; 71; 153; 89; 120; 244; 27; 52; 25; 79; 143; 148; 56; 91; 135; 68; 160; 155; 84]);
   (32494, [0; 92; 27; 156]);
   (32495, [25; 62]);
   (32496, [25; 244; 143; 64; 91; 79; 15; 148; 0; 30; 155; 190; 126]);
   (32497, [244]);
   (32498, [244; 91; 25]);
   (32499, [25; 89; 218; 219; 155; 94; 116; 91; 15; 158; 96; 84; 153; 92; 32; 148; 246; 68; 79]);
   (32500, [52; 89; 25; 158; 155; 91; 86; 27; 30; 56; 32; 153; 84; 219; 209; 29; 17; 157; 227; 96; 148; 160; 159; 214; 93; 116; 94; 180; 143; 31; 62; 15; 150; 246; 120; 81; 92; 218; 184]);
   (32501, [192; 25; 126; 52; 30; 89; 62; 64; 148; 0; 153; 91; 155; 190; 143; 84; 116; 15; 20; 1; 156; 92; 160; 31]);
   (32502, [155; 218; 89; 91; 25; 153; 79]);
   (32503, [244; 25; 52; 190; 126; 89]);
   (32504, [89; 25; 218; 148; 143; 153; 52; 155; 91]);
   (32506, [227]);
   (32507, [251; 64]);
   (32508, [56; 25; 17; 218; 153; 20; 143; 52; 6; 91; 126; 31; 246; 155; 32; 159; 81; 160]);
   (32509, [246; 52; 89; 79; 91; 143]);
   (32510, [244; 91]);
   (32511, [25; 192; 153; 155; 116; 91; 56; 126; 158; 27; 89; 68; 190; 29; 32; 62; 20; 143; 64; 15; 79; 52; 148; 156; 30; 160; 31; 84; 180; 4; 96]);
   (32512, [244; 116; 89; 91; 25]);
   (32513, [205]);
   (32514, [251; 25]);
   (32515, [205; 91; 155]);
   (32516, [246; 52; 143; 91; 56]);
   (32517, [30; 244; 52; 31; 209; 25; 32; 93; 157]);
   (32518, [89; 25; 217; 153; 244; 84; 96; 91; 159]);
   (32519, [205; 91; 155]);
   (32520, [64; 79; 251; 126; 190]);
   (32521, [116; 52; 153; 25; 56; 120; 89]);
   (32523, [205]);
   (32524, [205; 91]);
   (32526, [218; 89; 25; 91; 32]);
   (32527, [205]);
   (32529, [205; 27]);
   (32530, [244]);
   (32531, [52; 0; 116; 244; 7; 71; 64; 25; 79; 15; 155; 56; 143; 65; 91; 62; 190; 81; 126; 20; 32; 153]);
   (32532, [52; 25; 116; 148; 56]);
   (32533, [86; 227; 126; 79; 62; 143; 190; 91; 153; 64; 214; 148; 52; 93]);
   (32534, [25; 52; 244; 116; 89; 120; 153; 81; 17; 148; 20; 4; 56; 68; 160; 32; 159; 79; 143]);
   (32535, [227; 91]);
   (32536, [89; 217; 25; 116; 91; 153; 76; 34; 143; 38; 120; 79; 180; 155; 68; 148; 84; 96; 226; 64; 52; 15; 32; 160; 106]);
   (32537, [25; 205; 30; 91; 155; 92]);
   (32538, [246; 116; 120; 25; 79; 153; 143]);
   (32539, [205; 64; 143]);
   (32540, [0]);
   (32541, [89; 244; 25; 153; 52; 116; 120; 217; 79; 32; 68; 84; 143; 180; 160; 148; 56]);
   (32543, [205; 25; 91]);
   (32544, [244; 52; 116; 89; 0; 64; 79; 143; 155; 25; 15; 148; 190; 32; 62]);
   (32545, [205; 91]);
   (32546, [116; 205; 25]);
   (32547, [205]);
   (32548, [143; 62; 20]);
   (32549, [0; 143; 62; 190]);
   (32551, [251; 25]);
   (32552, [218; 91; 89; 153; 25; 116; 155; 96]);
   (32553, [116; 52; 244; 120; 25; 153; 81; 84; 56; 143; 148; 15; 180; 91; 132; 96; 160; 89]);
   (32554, [27; 79; 155; 219; 91; 227; 116; 93; 29; 89]);
   (32555, [52; 25; 56]);
   (32556, [205; 91; 155; 25]);
   (32557, [52; 244; 143; 91; 0]);
   (32558, [116; 52]);
   (32559, [205; 91]);
   (32560, [25; 218; 116; 79; 153; 155; 143]);
   (32561, [251; 0]);
   (32562, [244]);
   (32563, [205]);
   (32564, [52; 116; 244; 89; 153; 56; 120; 25; 155; 84]);
   (32565, [205; 91]);
   (32568, [217; 89; 25; 96; 68; 153; 116; 91; 32; 30]);
   (32570, [52; 25; 244; 116; 64; 56; 84; 153; 89; 143; 15; 79; 0; 20; 91; 148; 160; 120]);
   (32578, [25; 155])].
Definition pos_chars_17 : list (char * list N) :=
  [(32580, [246; 116; 15; 91]);
   (32581, [25]);
   (32592, [25; 89; 227; 153; 86; 42; 4; 148; 84; 96; 68; 116; 155; 214]);
   (32593, [25; 89; 217; 42; 116; 96; 153; 52; 143; 79; 91; 159; 148; 32; 95; 15; 31; 155; 17; 180; 120; 20; 30; 4; 160; 81; 84]);
   (32596, [205; 143; 15; 52; 91]);
   (32597, [0; 193; 157; 116; 91; 93; 194; 94; 143; 96; 155; 158; 64; 153]);
   (32599, [27; 158; 30; 209; 155; 91; 93; 25; 94; 153; 116; 29; 89; 96; 157; 160; 143; 52; 171; 159; 32; 0; 4; 68; 28; 31; 20; 148; 132; 56; 84; 156]);
   (32600, [205; 94; 158]);
   (32602, [120; 244; 116; 52; 89; 25; 153; 143; 148; 17; 79; 56]);
   (32607, [205; 89]);
   (32609, [251; 91; 89; 155; 25; 143]);
   (32610, [244; 52; 60; 124; 116; 143; 91; 180; 15; 160; 56; 25]);
   (32616, [205]);
   (32617, [244; 89; 116; 25; 84; 155; 91; 96; 32]);
   (32618, [217; 25; 116; 120; 89; 153; 15; 79; 96; 84; 128; 148; 143; 20; 155]);
   (32622, [116; 89; 244; 120; 52; 25; 153; 143; 155; 15; 32; 148; 56; 79; 20; 160; 132; 96; 93]);
   (32625, [244; 217]);
   (32626, [116; 89; 218; 52; 95; 25; 17; 155; 84; 91; 153; 102]);
   (32628, [205]);
   (32633, [52; 25]);
   (32638, [205]);
   (32641, [52; 25; 194; 116; 79; 56; 91; 84; 155]);
   (32650, [25; 217; 89; 91; 27; 155; 153; 94; 116; 30; 84; 158; 143; 32; 15; 159; 79; 96; 160; 148; 120; 92; 180; 107; 28; 43; 145]);
   (32652, [219; 209; 30; 32; 158; 91; 93; 89; 25; 81]);
   (32654, [30; 209; 35; 150; 25; 22; 31; 64; 0; 17; 158; 32; 94; 155; 27; 91; 96; 120; 89; 116; 52; 81; 159; 148; 153; 4; 56; 145; 160; 79; 143; 15; 20; 29; 93; 71; 7; 62; 84; 95; 92; 156; 126; 190; 3]);
   (32660, [25; 89; 218; 116; 153; 91]);
   (32666, [25; 89; 153; 32; 52]);
   (32669, [205]);
   (32670, [244; 0; 52; 64; 25; 143; 116; 62; 153; 91; 190; 20; 56; 89; 15; 192]);
   (32671, [25; 32; 153; 160]);
   (32673, [52; 116; 219; 155; 148; 91; 246; 120; 89; 64; 143]);
   (32676, [25; 227; 89; 86; 91; 158; 116; 143; 52; 155; 20; 148; 81; 15; 94; 84; 153; 7; 79; 64; 145; 56; 214; 180; 30; 17; 132; 4; 96; 32; 120; 31; 92]);
   (32679, [25; 251; 153]);
   (32687, [25; 160; 96]);
   (32688, [25; 251]);
   (32690, [91; 155; 205; 156; 89; 92]);
   (32696, [62]);
   (32697, [218; 89; 155; 25; 148; 143; 79; 91; 96]);
   (32700, [205]);
   (32701, [91; 25; 219; 227; 89; 27; 155; 52; 209; 30; 68; 143; 218; 86; 159; 15; 116; 93; 29; 92; 153; 214; 20]);
   (32703, [219; 93; 91; 27; 155]);
   (32705, [218; 89; 27; 219; 91; 143; 155; 94; 30; 158; 25; 148; 93]);
   (32709, [218; 25; 153; 155; 116; 89; 143; 91; 93; 160]);
   (32714, [155; 205; 91]);
   (32716, [43]);
   (32718, [218; 25; 91; 155; 89; 153; 96]);
   (32724, [91; 116; 94; 219; 0; 153; 96; 155; 120; 92; 32; 158; 160; 93]);
   (32725, [52]);
   (32728, [244; 52; 91; 89; 25; 15; 155; 153; 148; 20]);
   (32735, [27; 219; 91]);
   (32736, [218; 91; 27; 89; 155; 25; 62; 126; 30; 64; 153; 116; 143; 194; 158; 148; 84; 94; 29; 79]);
   (32737, [25; 30; 155]);
   (32741, [91; 205; 155]);
   (32742, [219; 91; 28]);
   (32745, [91; 27; 148; 15; 143; 84; 79; 62; 194; 20; 116; 52; 153; 25; 155]);
   (32750, [91; 205]);
   (32752, [93; 32; 25; 91; 218; 160; 155; 94; 158; 157; 159; 96; 29]);
   (32753, [52; 56; 155]);
   (32755, [205; 91; 89; 116]);
   (32763, [52; 244; 116; 15; 25; 20; 143; 89; 148; 96; 91; 56; 79; 155; 120; 7; 153]);
   (32764, [89; 218; 79; 143; 91; 25; 155; 30; 153; 106; 158; 81; 96; 4; 68; 160; 116; 71; 94; 76; 148; 92]);
   (32768, [116; 155; 91; 0; 244; 64; 159; 15; 25; 30; 32; 89; 143; 246; 156; 153; 92]);
   (32769, [25; 192; 27; 64; 89; 155; 153; 0; 30; 120; 91; 43; 116; 148; 143; 4; 102; 52; 15; 7; 20; 38; 180; 79; 62; 190; 17; 28; 81; 29; 145; 32; 158; 135; 84; 56; 94; 159; 31; 160]);
   (32771, [52; 56; 116; 244; 25; 153; 84; 120; 91; 155; 89; 94; 29; 158; 160; 81; 27; 43; 30; 143; 148; 0; 17; 159; 145; 157; 93]);
   (32772, [15; 25]);
   (32773, [89; 211; 70; 102; 134; 91; 153; 148; 143; 96; 81; 155; 159; 79; 84; 32; 158; 30]);
   (32774, [94; 218; 25; 91; 158]);
   (32779, [143; 89; 205]);
   (32780, [198; 6; 70; 143; 45; 71; 148; 60; 134; 153; 7; 43; 52; 155; 91; 29; 180; 132; 135; 15; 190; 156; 20]);
   (32781, [244; 116; 52; 20; 89; 64; 148]);
   (32784, [0; 244; 25; 128; 116; 32; 52; 89; 4; 15; 20; 64; 3; 155; 1; 79; 91; 27; 153; 143; 148; 56; 29; 84; 92]);
   (32786, [30; 25]);
   (32789, [25; 52; 244; 56; 91; 116; 153; 143; 148; 155; 120; 89; 32; 132]);
   (32790, [217]);
   (32791, [116; 52; 89; 244; 25; 153; 120; 68; 84; 91; 155; 148; 143]);
   (32792, [116; 246; 91; 153; 155; 25; 92; 89]);
   (32793, [217; 244; 25; 89; 79; 32; 52]);
   (32796, [91; 205; 89]);
   (32800, [244]);
   (32802, [217; 244]);
   (32805, [251]);
   (32806, [56]);
   (32807, [205]);
   (32808, [205]);
   (32809, [205]);
   (32810, [244; 52]);
   (32817, [116; 205]);
   (32819, [25; 217; 158; 89; 91; 153; 42; 52; 143; 64; 71; 15; 155; 79; 99; 56; 84; 160; 116; 0; 148; 159; 20; 32; 93]);
   (32821, [25; 251]);
   (32822, [27; 209; 91; 155; 30; 31; 252; 29; 157; 93; 159; 158; 25; 153; 32; 89; 160]);
   (32823, [52; 91; 148; 126; 190]);
   (32824, [246; 52; 116; 143; 15; 153; 25; 148; 91; 155]);
   (32827, [64; 25; 89; 244; 79; 52; 143; 153; 84; 116; 148; 56; 91; 15; 67]);
   (32829, [52; 219; 91; 0]);
   (32831, [27; 143; 79; 219; 15; 91; 0; 155; 30; 25; 20; 148; 28]);
   (32834, [27; 158; 219; 28; 157; 30; 155; 91]);
   (32835, [205; 91; 155]);
   (32838, [52; 246; 91; 155]);
   (32842, [244; 52; 64; 116; 30; 143; 32; 25; 15; 7; 180; 79; 153; 155]);
   (32843, [244; 25; 120; 79; 143; 116; 145; 91]);
   (32844, [25; 218; 116; 89; 120; 153; 52; 68; 148; 143; 79; 64; 81; 96; 17; 84; 91; 56; 155; 145; 132; 20; 32]);
   (32845, [89; 251]);
   (32850, [0; 116]);
   (32852, [52; 25; 94; 246; 145; 153; 31; 159; 120; 89; 116; 81; 17; 158; 20; 56; 96; 32; 30; 91; 155; 95; 148; 160; 7; 143; 84; 4; 180; 0; 132]);
   (32856, [116; 52; 244; 153; 25; 91; 120; 155]);
   (32858, [52; 244; 116; 25; 153; 160; 20; 56; 155; 91; 15; 32; 30; 143; 96; 79; 120; 148; 158]);
   (32873, [64; 79; 205]);
   (32874, [0; 91; 25; 194; 15; 143; 155; 96; 116; 20; 148; 153; 92]);
   (32881, [143; 0; 251]);
   (32895, [156; 155]);
   (32899, [94; 64; 219; 0; 158; 52; 91; 65; 155; 116; 56; 15; 153; 246; 25; 30; 159; 1; 29; 157; 62]);
   (32900, [52; 25]);
   (32902, [71; 214; 52; 64; 15; 7; 89; 218; 116; 79; 148; 56; 155; 91; 143]);
   (32903, [30; 56; 219; 155; 25; 91; 29; 52; 160; 156; 32; 28]);
   (32905, [89; 217; 25; 143; 68; 148; 153; 116; 79; 0; 4; 160; 84; 52; 20; 91; 132; 155; 32; 96; 43; 81; 17]);
   (32907, [217; 25; 89; 148]);
   (32908, [25; 218; 89; 153; 52; 143; 29; 148; 32; 84]);
   (32915, [251; 79; 89]);
   (32918, [27; 25; 219; 68; 155; 91; 79; 89; 84; 143; 246; 158; 30; 29; 28; 94]);
   (32920, [218; 116; 25; 89; 79; 15; 120; 143]);
   (32922, [25; 218; 12; 150; 153; 89; 116; 148; 79; 180; 94; 52; 143; 22; 84]);
   (32923, [25; 89]);
   (32924, [205; 91]);
   (32925, [217; 25; 89; 153; 15; 116; 148; 143; 84; 79; 160; 96; 17; 32]);
   (32927, [205; 96; 153]);
   (32928, [89; 25; 217; 153; 148; 143; 116; 79; 84; 155; 52; 160; 91; 120]);
   (32929, [25; 227; 89; 86; 116; 214; 102; 160; 153; 120; 91; 20; 159; 35; 17; 96; 148; 52; 155; 84; 15; 81; 32; 135; 79]);
   (32930, [89; 218; 25; 153; 116; 52; 68; 143]);
   (32932, [89; 153; 218; 25; 116; 160; 0; 79; 143; 91; 96]);
   (32933, [0; 89; 25; 217; 116; 94; 153; 244; 148; 120; 158; 30; 143; 91; 192; 159; 56; 32; 160; 155; 79; 29; 62; 190; 20; 4; 84; 15]);
   (32937, [25; 217; 42; 89; 52; 71; 116; 148; 20; 84; 143; 155; 79; 153; 91; 96; 15; 68; 244]);
   (32938, [89; 153; 251; 132]);
   (32939, [205; 89]);
   (32941, [251]);
   (32942, [0; 1]);
   (32943, [52; 116; 244; 30; 91; 71; 27; 155; 25; 158; 29; 0; 64; 93; 32; 31; 96; 89; 157; 120; 70; 94; 159; 160]);
   (32945, [89; 25; 153; 84]);
   (32946, [120; 116; 153; 89; 84; 52; 246; 155; 56; 159; 148; 91; 171; 25; 158; 4; 93; 143; 29; 30; 160; 81; 32; 156; 157]);
   (32948, [89; 205; 25; 79; 91]);
   (32951, [205]);
   (32954, [217; 25; 89; 84; 116; 15; 79; 143; 153; 148]);
   (32956, [205; 89; 96]);
   (32957, [218; 89; 96; 25; 153]);
   (32958, [25; 217; 116; 20; 89; 52; 32; 153; 4]);
   (32959, [25; 89; 244; 116; 52; 148; 64; 84; 153; 143; 56; 79; 159]);
   (32960, [81; 84; 116; 192; 153; 145; 148; 89; 52; 79; 160; 62; 120; 190; 64]);
   (32961, [120; 218; 52; 116; 246; 89; 153; 25; 143; 155; 15]);
   (32962, [205]);
   (32963, [217; 25; 89; 116; 64; 20; 91; 32; 153; 148; 180]);
   (32964, [205; 89; 91; 92; 155]);
   (32966, [25; 65; 217; 0; 89; 79; 15; 143; 52; 116; 91; 148; 71; 153; 155; 20; 32; 62; 145]);
   (32972, [244; 25; 52; 12; 89; 116; 15; 7; 143; 91; 153; 79; 84; 56; 155; 0; 42; 94; 68; 64; 32; 148; 160; 20; 180]);
   (32973, [205]);
   (32974, [89; 25; 227; 116; 153; 4; 86; 120; 84; 143; 95; 91; 96; 214; 15; 32; 184; 79]);
   (32982, [25; 192; 64; 62; 153; 190; 126; 155; 116; 91; 143; 0; 89; 79; 132]);
   (32983, [205; 91]);
   (32985, [205]);
   (32986, [25; 153; 89; 148]);
   (32987, [89; 153]);
   (32988, [56; 116; 244; 153; 25; 91; 89; 52; 143; 155; 79; 148; 94; 96; 158; 20; 84; 68; 31; 15; 32; 160; 30; 156; 81; 92; 64; 157; 27; 93; 120; 43]);
   (32989, [89; 251; 143]);
   (32990, [89; 153; 68; 84; 25; 159; 158]);
   (32993, [27; 25; 219; 52; 91; 15; 7; 89; 28; 155; 153; 199; 148; 32; 158; 20; 30; 180; 143; 0; 190; 56; 29; 62; 157; 93; 218; 42]);
   (32996, [205; 91; 155]);
   (32997, [27; 91; 219; 155; 30; 25]);
   (32999, [64; 251; 190; 126; 91; 153]);
   (33000, [205]);
   (33001, [205]);
   (33002, [205]);
   (33003, [218; 143; 25]);
   (33004, [251; 25]);
   (33005, [25]);
   (33007, [218; 25; 155]);
   (33008, [25; 218; 20; 153; 81]);
   (33009, [89; 251; 153; 155; 25; 32]);
   (33011, [25; 20; 52]);
   (33012, [25]);
   (33014, [89; 217; 25; 30; 52; 153; 4; 32; 120; 96; 143; 20; 56; 244; 84; 160; 15; 68; 148]);
   (33016, [25; 218; 42; 89; 15; 153; 116; 143; 79; 84; 56; 71; 217; 17; 155; 20; 148]);
   (33018, [89; 217; 96; 153; 32; 160; 91; 155]);
   (33020, [25; 15]);
   (33021, [116; 244; 25; 89; 52; 153; 81; 155; 68; 71; 135; 143; 148; 64; 27; 91; 120; 96; 180; 160; 79; 15; 159; 0; 84; 132; 20; 184; 94; 95; 32; 29; 93; 30]);
   (33026, [25; 89; 153; 94; 84; 143; 158; 96; 116; 30; 4]);
   (33030, [71; 0; 192; 64; 25; 89; 143; 148; 62; 96; 126; 190; 32]);
   (33033, [89; 218; 94; 25; 227; 148; 153; 91; 79; 84; 116; 143; 155; 96; 126; 62; 20; 160]);
   (33034, [25; 218; 20; 89; 153; 91; 155; 158; 17; 143]);
   (33037, [15; 218; 246; 20]);
   (33038, [205]);
   (33039, [89; 192; 25; 153; 64; 143; 62; 0; 160; 148; 65; 20; 91; 159]);
   (33040, [218; 25; 89; 153; 143]);
   (33041, [25; 89; 217; 148; 79; 153; 84; 143; 180; 20; 95; 96; 116; 52; 126; 15; 71; 160; 64; 159; 32]);
   (33042, [205; 89; 96]);
   (33043, [25; 217; 153; 116]);
   (33044, [205; 89; 79]);
   (33046, [25; 218; 89; 180; 153; 148; 91]);
   (33048, [205; 89]);
   (33050, [217; 25; 89; 12; 116; 88; 79; 153; 143; 94; 52; 84; 140; 15; 126; 170; 64; 91; 148; 71; 155; 4; 68; 135]);
   (33054, [205]);
   (33065, [89]);
   (33068, [251]);
   (33071, [89; 205; 153; 25; 91]);
   (33073, [52; 116; 244; 15; 25; 56; 64; 158; 91; 143; 93; 27; 155; 190; 126; 20; 99; 84; 153; 160; 32; 120; 180; 159; 148; 96]);
   (33074, [205; 89; 32; 153; 96]);
   (33080, [217; 42; 25; 89; 71; 86; 116; 52; 79; 84; 64; 65; 91; 20; 148; 153; 155; 143; 128; 120; 15; 0]);
   (33086, [25; 217; 180; 89; 153; 79; 91; 148]);
   (33094, [64; 244]);
   (33096, [89; 25; 153]);
   (33098, [94; 153; 218; 43; 160; 25; 91; 155; 158; 89; 159; 148; 143; 24; 96; 93; 116; 157]);
   (33099, [218; 42; 25; 89; 143; 79]);
   (33100, [244; 52; 25; 32]);
   (33104, [3; 89; 52; 192; 25; 0; 153; 116; 64; 160; 148; 96; 4; 180; 143; 120; 84; 246; 32; 158; 91; 79]);
   (33105, [89; 205; 79; 143; 84]);
   (33107, [29; 32; 30; 25; 94]);
   (33108, [89; 227; 116; 86; 25; 68; 153; 143; 20; 148; 155; 218; 84]);
   (33109, [89; 218; 25; 42; 153; 116; 32; 84; 148; 91; 180]);
   (33113, [205]);
   (33120, [25; 218]);
   (33125, [192; 64; 25; 0; 153; 89; 143; 15; 160]);
   (33127, [25; 205]);
   (33129, [251; 89; 91]);
   (33133, [89; 25; 145]);
   (33134, [217; 25; 148; 79; 155; 89; 153; 68]);
   (33136, [217; 25; 116; 89; 71; 52; 153; 84; 180; 20; 15; 68; 148; 30; 79; 157; 32; 96]);
   (33137, [89; 25]);
   (33140, [64; 89; 194; 205]);
   (33145, [25; 218; 89; 52; 42; 143; 116; 153; 79; 15; 91; 180; 144; 148; 56; 160]);
   (33146, [89; 25; 153; 148; 84]);
   (33147, [64; 244; 89; 52; 190; 126; 0; 148; 62; 25]);
   (33148, [0]);
   (33150, [116; 244; 52; 91; 79; 89; 143; 155; 190; 126; 30; 158; 15; 20; 27; 120; 32; 153; 84; 148; 25; 96]);
   (33151, [217; 89; 25; 116; 153; 71; 96; 84; 155; 148; 91; 160; 180; 0; 81]);
   (33152, [89; 25; 244; 148; 20; 96; 84]);
   (33154, [25]);
   (33160, [89; 153]);
   (33162, [89; 205; 153; 116; 148; 143; 84]);
   (33167, [89; 244; 25; 153; 96; 143; 79; 84; 15; 148; 160]);
   (33169, [91; 205]);
   (33176, [218; 15; 116; 25]);
   (33179, [89; 218; 155; 116; 25; 153]);
   (33180, [89; 217; 153; 96; 25; 52; 143; 116; 32]);
   (33181, [218; 25; 116; 89; 79; 91; 143; 148; 84]);
   (33187, [205]);
   (33190, [89; 205]);
   (33192, [148; 52; 153; 25; 20; 32; 0]);
   (33203, [218; 25; 116; 93; 89; 96]);
   (33210, [246; 116; 91; 79; 155]);
   (33211, [192; 64; 25; 79]);
   (33216, [25; 218; 91]);
   (33217, [205; 155]);
   (33218, [89; 217; 25; 143; 153; 79; 218; 116; 155; 91; 84; 68; 148; 160])].
Definition pos_chars_18 : list (char * list N) :=
  [(33219, [0; 194]);
   (33222, [52; 89; 79; 218; 148; 56; 25; 91]);
   (33226, [192; 64; 25; 89; 116]);
   (33228, [25; 205]);
   (33251, [89; 217; 91; 25; 155; 79; 52; 116; 94; 143; 158; 93; 84; 218; 96]);
   (33255, [27; 219; 52; 28; 91; 25; 143]);
   (33258, [38; 226; 7; 52; 25; 0; 116; 71; 156; 20; 102; 56; 158; 143; 34; 15; 155; 153; 148; 160; 29; 91; 159; 4; 132; 30; 32; 135; 3; 31; 180; 62; 17; 94; 81; 96; 98; 128; 53]);
   (33260, [219; 89; 79]);
   (33261, [192; 25; 89; 52; 64; 116; 15; 143; 62; 91; 153; 0; 79; 126; 96; 155; 148; 20]);
   (33267, [226; 71; 116; 7; 34; 70; 135; 52; 20; 134; 155; 94; 91; 143; 148; 32; 107; 79; 98; 15; 25; 76; 84; 153; 126; 89; 158; 92; 160]);
   (33268, [116; 64; 52; 244; 71; 70; 89; 25; 143; 0; 79; 56; 153; 148; 155; 32; 91; 31; 180; 84; 67; 96; 159; 190; 156; 157; 126]);
   (33275, [219; 92; 246; 91; 143; 116; 148; 155]);
   (33276, [218; 25; 94; 89; 153; 116; 91; 79; 158]);
   (33278, [107; 148; 251; 94; 143; 91]);
   (33280, [244; 91; 25]);
   (33282, [244; 155; 91]);
   (33284, [205]);
   (33285, [89; 25; 217; 153; 91; 218; 79]);
   (33286, [25; 89; 15; 158; 94; 148]);
   (33292, [217; 25; 89; 79; 116; 153; 158; 84; 148; 180; 64; 52; 143; 91; 15; 20; 68; 56]);
   (33293, [89; 244; 52; 25; 79; 116; 155; 7; 153; 91; 93; 15; 29; 42; 120; 94; 158; 32; 157; 143; 84; 148; 27; 180; 30]);
   (33296, [246; 15]);
   (33298, [0; 27; 91; 25; 219; 52; 56; 155; 246; 62; 190; 29; 20; 64; 30; 32; 160; 89; 153; 194; 93; 28]);
   (33300, [244; 52]);
   (33307, [84; 25]);
   (33308, [205; 91; 155; 89; 159; 25; 96]);
   (33310, [25; 244; 116; 89; 153; 52; 143; 79; 91; 56; 84; 159; 30; 155; 148; 17; 15; 120; 31; 43; 20]);
   (33311, [217; 89; 30; 79; 91; 25; 96; 116; 143; 155; 20; 29; 158; 153; 92]);
   (33313, [205]);
   (33314, [25]);
   (33315, [205]);
   (33320, [251]);
   (33322, [25; 81; 116; 52; 218; 153; 89; 159; 91; 219; 56; 120; 17; 160; 31; 95; 96; 155; 32; 145; 158; 246; 30; 35; 92]);
   (33323, [89; 205; 91; 155]);
   (33324, [64; 45; 237; 102; 148; 71; 84; 25; 153; 143; 109; 79; 0; 180; 62; 126; 155; 89; 32; 91; 30; 68]);
   (33325, [251]);
   (33328, [89; 25; 218; 4; 159; 91; 160; 155; 95]);
   (33329, [89; 217; 25; 42; 116; 91; 158]);
   (33331, [251; 25]);
   (33332, [251; 25]);
   (33333, [217; 116; 25; 89; 79; 153; 155; 91]);
   (33334, [89; 218; 153; 91; 159; 25]);
   (33335, [218; 89; 25; 42; 32; 91]);
   (33336, [205; 91; 143; 155]);
   (33337, [217; 25; 89; 42; 116; 120; 153; 81; 143; 96; 56; 84; 4; 91; 159; 30; 17; 29; 160; 155; 79; 148; 88; 20]);
   (33339, [205; 89]);
   (33342, [25]);
   (33348, [25]);
   (33351, [89; 217; 25; 91; 218; 159; 153]);
   (33353, [205]);
   (33355, [251; 89]);
   (33359, [205]);
   (33368, [214; 86; 227; 35]);
   (33370, [205]);
   (33375, [89; 251]);
   (33384, [251; 25]);
   (33390, [205; 160; 89; 91; 155]);
   (33391, [0; 64; 25; 91; 155; 126; 116; 192; 4; 199; 22; 89; 153; 219; 148; 30; 15; 143; 94; 20; 96; 62; 79; 120; 158; 29; 93; 160; 84; 156; 157; 159; 218; 150; 92; 32; 43; 52; 27]);
   (33392, [0; 15; 84; 194; 20; 89; 25; 143; 79; 126; 148; 91]);
   (33394, [89; 25; 218; 153; 68; 116; 79; 64; 158; 84; 143; 91; 148; 102; 88; 155; 30; 94; 120; 15; 160; 159; 29; 180; 4; 71; 32; 96; 52; 126]);
   (33395, [64; 192; 91; 0; 155; 25; 126; 52; 190; 143; 84; 148; 20; 79; 116; 92; 56; 153]);
   (33396, [205]);
   (33402, [25; 89; 153; 148; 218; 91; 116; 155; 159; 79; 84; 96; 32; 160; 158; 81; 20; 52; 95; 17; 143; 156; 15; 132; 145; 93; 92]);
   (33405, [219; 91; 155; 89; 251]);
   (33406, [27; 25; 219; 91; 155; 29; 158; 79; 30; 89; 143; 28; 32]);
   (33407, [251; 91; 89]);
   (33410, [89; 25; 52; 217; 120; 107; 43; 153; 116; 86; 214; 56; 91; 148; 0; 79; 94; 84; 20; 15; 81; 132; 143; 158; 155; 4; 68; 96; 160; 17; 30; 95; 92; 32; 190; 126]);
   (33416, [225]);
   (33418, [251; 91; 155]);
   (33419, [89; 25]);
   (33421, [25; 89; 32; 30]);
   (33422, [251; 89; 91]);
   (33423, [251; 155; 91]);
   (33425, [205; 91]);
   (33426, [89; 218; 25; 91; 143; 155; 30; 43; 79; 160; 29; 15; 158; 153; 84; 94; 116; 27; 93]);
   (33431, [25; 30]);
   (33432, [89; 251]);
   (33433, [25; 29; 30; 155; 153; 93; 143; 96; 160; 157; 15]);
   (33436, [30; 64; 94; 92; 0; 158; 25; 89; 160; 159; 153]);
   (33437, [25; 30; 31; 93; 89; 159; 153; 96; 158; 160; 91; 143; 92; 32]);
   (33439, [52]);
   (33441, [25; 116]);
   (33444, [25]);
   (33445, [25; 227; 89; 29; 91; 148; 155]);
   (33446, [25; 89; 27; 219; 158; 153; 30; 84; 91; 155; 160; 79; 143; 32; 148]);
   (33448, [25; 153; 89]);
   (33449, [219; 89; 91; 155]);
   (33450, [89; 251; 91]);
   (33451, [25]);
   (33452, [91; 30; 209; 25; 155; 29; 153; 158; 32; 93; 31; 94; 64; 96; 89]);
   (33453, [25; 159; 29]);
   (33454, [27; 219; 91; 30; 155]);
   (33455, [218; 25; 89; 227; 91; 153; 155; 86; 96; 160]);
   (33456, [205]);
   (33457, [89; 25; 244; 153; 27; 52; 143; 158; 116; 148; 91; 30; 79; 15; 62; 155; 31; 190; 96; 126; 94; 68; 32; 43; 20; 160; 159; 28; 120; 64; 4; 0; 29; 17; 84; 157; 92]);
   (33459, [91; 25; 155; 219; 89; 218; 116; 143; 194; 32; 92; 30; 96; 79; 160; 84; 148; 29; 159; 62]);
   (33460, [205; 25]);
   (33463, [251; 89; 30; 91; 155; 27]);
   (33464, [25; 15; 143; 155; 91; 126; 62; 92; 156]);
   (33465, [91; 25; 219; 155; 218; 89]);
   (33469, [116; 217; 89; 25; 91; 153; 155; 120; 148; 160; 29]);
   (33470, [251; 91]);
   (33473, [251; 153; 25; 91]);
   (33476, [251; 96; 91; 160; 32; 153]);
   (33479, [89; 25; 218; 153; 91; 155; 30; 28]);
   (33480, [251; 155; 153; 91]);
   (33482, [205]);
   (33483, [89; 25]);
   (33484, [219; 91; 155]);
   (33485, [0; 25; 27; 62; 30; 219; 126; 143; 89; 190; 29; 79; 91; 153; 218; 148; 155; 20; 94; 93; 15; 3; 64]);
   (33486, [25]);
   (33487, [30; 116; 27; 94; 209; 158; 25; 17; 31; 91; 155; 32; 52; 159; 153; 89; 29; 93; 28; 160; 157; 64; 190; 126]);
   (33489, [218; 219; 91; 89; 94; 27; 155; 25; 158; 96; 93; 153]);
   (33490, [79; 251; 116; 84; 91]);
   (33491, [89; 91; 251; 153; 25; 155]);
   (33492, [218; 25; 89; 91; 20; 155; 153; 30]);
   (33493, [89; 25]);
   (33495, [89; 217; 25; 27; 32; 116; 158; 91; 0; 155; 30; 157; 153; 143; 120; 28; 15; 96; 156]);
   (33496, [25; 205]);
   (33499, [0; 52; 25; 64; 15; 20; 56]);
   (33500, [25; 148; 30]);
   (33502, [218; 25; 91; 89; 143; 148; 116; 153]);
   (33503, [52; 199; 15; 79; 143; 27; 148; 91; 198; 219; 25; 155]);
   (33504, [91]);
   (33505, [205; 89; 91]);
   (33507, [251; 89; 155; 25]);
   (33508, [25]);
   (33509, [198; 22; 70; 155; 143; 27; 91; 15; 6; 38; 89; 29; 116; 79; 52; 25; 30; 148; 126; 180; 158; 96; 71; 150; 92; 20; 244; 84]);
   (33510, [192; 67; 25; 116; 64; 52; 0; 71; 143; 7; 89; 79; 15; 65; 126; 190; 148; 84; 153; 155; 20; 120; 30; 180; 158; 1; 96]);
   (33515, [244; 25; 89]);
   (33519, [217; 25; 89; 153; 160; 32; 96; 31]);
   (33521, [30; 209; 25; 91; 32; 155; 31; 89; 0; 17; 27; 35; 22; 150; 153; 96; 93; 29; 158; 15; 145; 20; 163; 143; 4; 92; 160; 148; 156; 94; 1; 68; 157; 28; 159]);
   (33527, [251; 153; 89; 96; 160]);
   (33529, [25; 30; 31; 148; 32; 160; 159; 155]);
   (33531, [219; 155]);
   (33537, [0; 20; 1]);
   (33538, [91; 0; 192; 155; 64; 30; 79; 29; 153; 84; 96; 157; 116; 27; 160; 158; 148; 25; 126; 32]);
   (33539, [25; 116; 27; 89; 153; 120; 219; 91; 159; 184; 28; 155; 30; 84; 218; 132; 95; 158; 148; 32; 29]);
   (33540, [89; 25; 153; 160; 32]);
   (33541, [25; 27; 219; 89; 79; 30; 91; 32; 153; 143; 158; 94; 155; 15; 160; 157; 28]);
   (33542, [219; 94]);
   (33543, [205]);
   (33545, [25; 153; 89]);
   (33548, [219; 30]);
   (33550, [217; 89; 91; 25; 155; 148]);
   (33551, [251; 126; 155]);
   (33553, [205]);
   (33556, [89; 218]);
   (33557, [205]);
   (33559, [218; 116; 155; 91; 89]);
   (33562, [205; 32]);
   (33563, [89; 251]);
   (33564, [219; 25; 91; 155; 93]);
   (33575, [218; 89; 25; 91; 143; 153; 84; 155]);
   (33576, [93; 158; 94; 160; 91; 155; 157; 30; 29; 32; 96; 153; 159]);
   (33579, [126; 0; 62; 194; 64; 190; 20; 1; 84; 52; 79; 143; 148; 91; 15; 67]);
   (33580, [227; 86; 89; 116; 25; 153; 218; 180]);
   (33581, [25]);
   (33583, [25; 153]);
   (33585, [153; 25]);
   (33587, [155]);
   (33588, [25; 153]);
   (33589, [94; 158; 91; 218; 155; 25; 126; 79; 62; 190; 89; 153; 93]);
   (33590, [217; 25; 89; 116; 91; 155; 30; 153; 32; 96; 15; 143; 17; 20; 120; 94; 84; 158; 160; 159; 148]);
   (33592, [89; 126; 190; 25; 62; 155; 91]);
   (33593, [27; 91; 219; 143; 155; 15; 29; 89; 158; 94]);
   (33594, [251]);
   (33596, [25]);
   (33600, [27; 219; 91; 155; 28]);
   (33603, [91; 205; 155; 30]);
   (33606, [30; 27; 209; 158; 25; 219; 89; 155; 91; 143; 116; 153; 29; 15]);
   (33607, [251; 155]);
   (33609, [25; 89; 217; 116; 153; 4; 91; 143; 20; 52; 155; 158; 96; 71; 7; 0; 56; 148; 15; 84; 29; 79; 93; 64; 160; 32; 68; 159; 30; 120; 1; 94; 17; 145; 27]);
   (33615, [143; 79; 52; 0; 148; 205; 91]);
   (33616, [116; 246; 120; 153; 52; 91; 79; 89; 155; 25; 160]);
   (33617, [205; 91; 155]);
   (33618, [25; 0; 244; 116; 89; 218; 143; 52; 15; 94; 79; 153; 20; 155; 30; 106; 148; 56; 84; 29; 81; 91; 158]);
   (33620, [25; 93; 30; 153; 29; 89; 158; 92; 96; 32]);
   (33626, [219; 25; 89; 116; 155]);
   (33627, [89; 205]);
   (33628, [251; 89; 143]);
   (33630, [25; 89; 32]);
   (33631, [52; 89; 143; 160; 155; 30]);
   (33632, [89; 25; 32; 160]);
   (33633, [116; 120; 244; 67; 143; 52; 64; 190; 126; 79; 180; 15; 89; 153; 158; 148; 91; 84; 94; 155; 25; 20; 62; 160]);
   (33635, [116; 91; 27; 25; 194; 155; 64; 52; 0; 89; 153; 15; 219; 79; 143; 32; 156; 30; 84; 148; 94; 158; 92; 93; 96; 28; 20; 159; 29]);
   (33636, [218; 25; 116; 89; 32]);
   (33637, [30; 205; 155; 91]);
   (33638, [91; 205; 155]);
   (33639, [25; 126; 62; 0; 155; 91]);
   (33640, [25]);
   (33641, [205]);
   (33642, [205; 91; 96]);
   (33643, [192; 89; 155; 91; 116; 218; 52; 0; 25; 246; 143; 153; 79; 84; 93; 158; 148; 156]);
   (33644, [251; 153]);
   (33647, [89; 25; 217; 116; 153; 4; 155; 96; 81; 160; 95; 159; 79; 31; 91; 84; 17; 102; 120; 148; 32; 15; 30; 143; 20; 158; 52]);
   (33655, [89; 30; 218; 25; 91; 29; 209; 155; 71; 31; 158; 160; 153; 32; 15; 68; 81; 27; 148; 84]);
   (33656, [25]);
   (33659, [217; 155; 219; 91; 27]);
   (33660, [79; 52; 153]);
   (33661, [89; 251]);
   (33669, [246; 52]);
   (33670, [30; 25]);
   (33673, [91; 251; 153; 89; 155; 29; 93; 157]);
   (33678, [27; 155; 30; 93; 25; 94; 157; 96; 89; 91; 158; 159; 160; 29]);
   (33682, [205; 30; 29; 155]);
   (33683, [89; 205; 155; 91; 160]);
   (33688, [219; 27; 91; 25; 153; 30; 155]);
   (33691, [205]);
   (33692, [25]);
   (33694, [94; 158; 209; 20; 155; 91; 52; 159]);
   (33696, [143; 126; 194; 79; 205; 25; 91]);
   (33704, [25; 251; 153; 155; 89; 143]);
   (33705, [251; 155]);
   (33706, [251; 94; 25; 158; 91]);
   (33707, [199; 27; 30; 7; 52; 15; 143; 155; 29; 71; 20; 91; 4; 31; 148; 157; 25; 93; 6; 32; 158; 160; 153; 28; 94; 96; 0; 159]);
   (33712, [205]);
   (33713, [155; 30; 227; 91; 29; 158; 94; 93; 160; 157; 27; 25; 32; 159; 31; 89; 96; 148]);
   (33714, [155; 25; 218; 91; 89; 153; 30; 29; 94; 31; 32; 158; 160; 96; 156; 92]);
   (33715, [251; 155; 25; 15; 91]);
   (33716, [25]);
   (33718, [251; 91; 89]);
   (33719, [52; 244; 116; 25; 56; 79; 143; 153; 91; 30; 20; 89; 160; 29; 155]);
   (33720, [205]);
   (33721, [64; 91; 219; 155; 143; 190; 126; 0; 27; 32]);
   (33722, [218; 89; 91; 155; 15; 153; 96; 143]);
   (33724, [25]);
   (33725, [91; 96; 219; 64; 92; 0; 89; 155; 62; 153; 126; 25; 190; 194; 30]);
   (33728, [251; 89; 91; 155]);
   (33729, [219; 91; 89; 96; 155; 25; 32]);
   (33733, [143; 219; 27; 218]);
   (33735, [89; 218; 153; 160; 25; 91; 116]);
   (33738, [218; 25; 91; 155; 89; 153; 160; 30; 92; 29; 79; 96]);
   (33740, [89; 217; 116; 25; 153; 84; 91; 148; 160; 132; 96]);
   (33743, [209; 30; 91]);
   (33748, [251; 160; 89; 91]);
   (33750, [25; 153]);
   (33752, [205; 155]);
   (33756, [89; 217; 25; 153; 116; 155; 30; 91; 160; 84; 96; 79; 158; 32; 148; 180; 64]);
   (33757, [251; 25]);
   (33759, [25; 89]);
   (33760, [25; 153]);
   (33761, [91; 251; 25; 155]);
   (33765, [251; 155; 91]);
   (33769, [25; 20; 153; 30; 148]);
   (33770, [251; 89; 153; 143]);
   (33776, [205]);
   (33777, [91; 218; 96; 25; 160; 155; 32; 159; 30; 95; 94]);
   (33778, [155; 30; 209; 91; 29; 32; 157; 93; 64; 158; 25; 89; 52; 31; 160; 27; 94; 96; 143; 159; 153; 92]);
   (33785, [205; 91])].
Definition pos_chars_19 : list (char * list N) :=
  [(33789, [218; 91; 30; 155; 25]);
   (33793, [205; 91; 89]);
   (33795, [52; 116; 79; 218; 246; 91; 89; 155]);
   (33796, [153; 89; 158; 160; 251; 159; 91; 116; 25]);
   (33798, [251]);
   (33803, [251]);
   (33804, [52; 91; 244; 219; 155; 30; 79; 32; 56]);
   (33805, [91; 219; 30; 155; 89; 25; 15]);
   (33806, [52; 0; 116; 25; 15; 244; 153]);
   (33807, [251; 89]);
   (33809, [205; 155]);
   (33816, [205; 25; 91; 160; 32; 96]);
   (33820, [205; 25; 89; 153]);
   (33821, [153; 25; 89; 91; 148; 20; 29; 155; 157]);
   (33828, [25; 89]);
   (33829, [120; 25; 217; 56; 89; 153; 68; 116; 52; 91; 94; 30; 155; 84; 79; 42; 143; 132; 20; 180; 158; 4; 93; 148; 32; 15; 43; 244; 159; 29]);
   (33830, [52; 155; 246; 84; 91]);
   (33831, [27; 219; 0; 62; 30; 155; 126; 91; 28; 25; 143; 15]);
   (33832, [27; 89; 158; 91; 94; 155; 219; 30; 153; 209; 29; 25; 160; 93; 157; 32; 148; 159; 17; 28; 96]);
   (33841, [25; 89]);
   (33848, [89; 251; 91; 155]);
   (33852, [25; 89; 153]);
   (33853, [116; 52; 244; 89; 0; 25; 79; 143; 153; 64; 84; 120; 148; 15; 126; 190; 20; 56; 30; 155; 91; 180; 170; 4; 94; 32; 158]);
   (33862, [155; 246; 158; 91; 116; 148]);
   (33873, [205; 155; 91]);
   (33878, [89]);
   (33879, [0; 244; 25; 64; 89; 52; 116; 91; 15; 153; 79; 155; 96]);
   (33881, [251]);
   (33882, [89; 91]);
   (33883, [155; 27; 30; 219; 89; 91; 25; 94; 31; 158; 160; 148; 28; 32]);
   (33884, [251; 89]);
   (33889, [25; 30; 209; 32; 153; 31; 17; 180; 155; 89]);
   (33891, [25; 27; 219; 89; 155; 91; 28; 153; 32; 30; 158; 160; 145]);
   (33897, [89; 218; 91]);
   (33899, [25; 153; 30; 148; 143; 32; 219; 160]);
   (33900, [116; 246; 89; 153; 25; 52; 143; 15; 120; 158]);
   (33901, [205; 155]);
   (33905, [217; 68; 89; 25; 62; 79; 143; 91; 155; 84; 126; 153; 148; 190; 96]);
   (33907, [0; 89; 153; 251; 91]);
   (33909, [89; 25; 29; 155; 30; 160]);
   (33910, [251; 25; 91]);
   (33912, [116; 205]);
   (33914, [116; 148; 205; 91]);
   (33922, [155; 91; 205; 158; 93; 143; 29; 89; 157; 30; 128; 160; 116; 79; 94; 153; 84; 25; 159]);
   (33927, [205]);
   (33928, [205]);
   (33929, [219]);
   (33931, [27; 209; 91; 219; 155; 28; 25; 20; 30]);
   (33932, [251]);
   (33934, [205]);
   (33943, [93; 205; 91; 158]);
   (33945, [30; 158; 244; 27; 91; 32; 25; 52; 155; 20; 116; 94; 126; 148; 93; 120; 15; 29; 190; 62; 89; 0; 64; 28; 31; 56; 159; 180; 157; 153; 96; 84; 160; 92; 79]);
   (33948, [89; 217; 25; 116; 143]);
   (33953, [89; 160; 251]);
   (33967, [27; 219; 155]);
   (33970, [27; 219; 25; 89; 30; 93; 91; 35; 155; 29; 160]);
   (33972, [25; 205]);
   (33976, [25; 52; 244; 153; 120; 143; 15; 56; 91; 160; 96; 32; 89; 155; 116; 68; 30]);
   (33977, [205]);
   (33978, [25; 153]);
   (33981, [205; 25; 91]);
   (33983, [219; 91; 25; 89; 155]);
   (33985, [91; 251; 155]);
   (33988, [89; 52; 25; 244; 153; 64; 7; 116; 20; 79; 143; 56; 91; 155; 159]);
   (33991, [25]);
   (33993, [89; 91; 158; 209; 155; 79; 30; 96; 81; 143]);
   (33994, [62; 190]);
   (33997, [205; 25]);
   (34000, [205]);
   (34001, [25; 143]);
   (34003, [25; 29; 155]);
   (34006, [25]);
   (34013, [25; 27; 192; 17; 153; 30; 68; 91; 89; 155; 126; 32; 64; 4; 62; 96; 190; 143; 132; 79; 31; 145; 0; 84; 28; 29]);
   (34015, [27; 219; 30; 91; 155; 89; 153]);
   (34016, [89; 251]);
   (34019, [96; 251]);
   (34021, [158; 94]);
   (34022, [7]);
   (34028, [0; 244; 27; 30; 94; 91; 1; 15; 190; 126; 143; 89; 155; 20; 227; 62; 153; 25; 158; 96; 219; 29; 148]);
   (34044, [219; 155; 25]);
   (34047, [89; 251; 84; 153; 158]);
   (34058, [25]);
   (34065, [116; 52; 25; 120; 56]);
   (34067, [52; 89; 25; 153; 116; 20]);
   (34071, [89; 25; 218; 153; 30; 160; 158; 91]);
   (34074, [91; 219; 155; 30; 27; 20; 0; 194; 15; 25; 79; 4]);
   (34079, [205]);
   (34081, [27; 219; 158; 94; 155; 91; 28; 92; 32; 30]);
   (34091, [244; 62; 126; 20; 116; 153; 190]);
   (34092, [25; 89; 81; 17; 218; 160; 91; 32; 30; 143]);
   (34103, [25; 153; 155]);
   (34104, [227]);
   (34105, [251; 155]);
   (34106, [25; 219; 27; 91; 155; 94; 158]);
   (34107, [89; 143; 251; 155; 91]);
   (34108, [91; 205; 64; 155; 143]);
   (34109, [64; 116; 89; 244; 153; 143; 52; 120; 148; 84; 155; 180]);
   (34115, [94; 92; 153; 52; 25]);
   (34120, [205; 89]);
   (34121, [89; 218; 153; 155; 25; 91; 29; 148]);
   (34122, [89; 218; 91; 155; 148; 153]);
   (34134, [251; 91]);
   (34137, [91; 218; 155; 25; 32]);
   (34142, [251]);
   (34148, [251; 64; 25]);
   (34152, [25; 20; 89]);
   (34162, [205; 30; 25; 155; 91]);
   (34164, [52; 25; 89; 246; 91; 155; 94; 158; 30; 0; 116]);
   (34169, [25]);
   (34170, [251; 25]);
   (34171, [89; 155]);
   (34174, [89; 91; 153; 219; 155; 159; 25; 218]);
   (34180, [192; 25; 64; 0; 27; 62; 190; 143; 89; 91; 116; 32; 148; 155; 84; 28; 79; 68; 4; 20; 153; 180; 160; 29; 132]);
   (34181, [244]);
   (34183, [205; 91; 89; 155; 153; 92]);
   (34191, [25; 32]);
   (34203, [27; 219; 155; 89; 91; 30]);
   (34204, [219; 25; 155; 91]);
   (34212, [205; 25]);
   (34216, [205; 91]);
   (34218, [25; 217; 91; 89; 116; 79; 153; 143; 218; 155; 148; 84]);
   (34222, [205; 89]);
   (34223, [89; 25; 32; 153]);
   (34224, [244; 91; 155; 52; 96]);
   (34231, [251; 89; 91]);
   (34233, [217; 89]);
   (34241, [205; 30]);
   (34249, [246; 116; 79; 64; 84; 120; 91; 96; 155]);
   (34255, [209; 116; 89; 94; 158; 25; 244; 32; 153; 52; 91; 27; 81; 160; 42; 4; 120; 155; 159; 15; 143; 84; 29; 30; 79; 148; 95; 180; 96; 157; 20; 56; 17; 132; 68; 64]);
   (34256, [52; 0]);
   (34259, [89; 148; 25]);
   (34261, [217; 155; 89; 25; 91; 15]);
   (34268, [205; 89; 153; 155; 91]);
   (34272, [25]);
   (34276, [217; 25; 155; 27; 91; 89; 4; 20; 29; 143; 96; 153; 30; 93; 32; 148]);
   (34281, [218; 91; 30; 25; 155; 89]);
   (34299, [218; 89; 25; 91; 153; 20; 155; 52; 158; 160; 94; 32]);
   (34303, [25]);
   (34309, [251; 91; 155; 27]);
   (34321, [25; 89; 32; 96; 180]);
   (34326, [89; 218; 116; 84]);
   (34328, [25]);
   (34343, [251]);
   (34345, [205; 91]);
   (34360, [244; 116; 155; 91]);
   (34364, [251; 25]);
   (34382, [217; 89; 91; 25; 155; 143; 30; 96; 79; 15; 153; 64; 43; 32; 92; 158; 52; 148; 84; 94; 20; 29; 38; 180; 93; 156; 160; 159; 62; 0; 27; 28; 157]);
   (34383, [218; 89; 160; 116; 91; 52; 153]);
   (34384, [116; 52; 194; 79; 64; 25; 120; 32; 148; 126; 153]);
   (34385, [116; 89; 246; 64; 120; 79; 143; 148; 91; 153; 155; 84; 158]);
   (34388, [0; 25; 92]);
   (34394, [199; 0; 25; 52; 64; 116; 143; 89; 91; 15; 4; 155; 79; 148; 1; 93; 56; 62; 153; 94; 190; 32; 158; 84; 96; 20]);
   (34398, [27; 91; 155; 219; 116; 235; 94; 218; 158; 30; 143; 25; 28]);
   (34402, [219; 91; 155; 79]);
   (34411, [89; 217; 25; 153; 116; 91; 96; 155; 143; 79; 160; 159; 120; 84; 148; 145]);
   (34412, [25]);
   (34414, [205]);
   (34417, [25; 89]);
   (34425, [89; 91; 217; 95; 96; 30; 25; 153; 79; 143; 155; 4; 158; 159; 20; 160; 27]);
   (34426, [251]);
   (34427, [205; 89; 91]);
   (34428, [251; 25; 91]);
   (34429, [6; 198; 15; 143; 20; 148]);
   (34430, [217; 89; 25; 91; 155; 15; 96; 153]);
   (34431, [205; 91; 89]);
   (34432, [116; 246; 120; 89; 153; 96; 52; 64; 79; 148; 25]);
   (34433, [89; 218; 25; 153; 84; 143; 158; 148]);
   (34434, [25; 148; 30; 15]);
   (34442, [25; 218; 89; 153; 91; 155]);
   (34443, [205; 91]);
   (34444, [30; 25; 89; 158; 143]);
   (34445, [15; 25; 20]);
   (34451, [89; 251]);
   (34453, [25; 89; 217; 52; 153; 91; 155; 96; 15; 148]);
   (34460, [25; 89; 153]);
   (34461, [217; 25]);
   (34467, [89; 251; 91; 153]);
   (34468, [205; 89; 153]);
   (34471, [251; 89]);
   (34472, [251; 160]);
   (34473, [209; 25]);
   (34474, [89; 251]);
   (34476, [205; 32]);
   (34479, [25]);
   (34480, [25; 89]);
   (34481, [89; 25]);
   (34484, [205; 89]);
   (34486, [89; 25]);
   (34490, [251]);
   (34496, [244; 25; 116; 52; 153]);
   (34500, [251; 89]);
   (34502, [217; 25; 153]);
   (34503, [217; 89; 25; 143; 79; 91; 155; 153; 30; 148; 52; 84; 116; 107; 96; 158; 180]);
   (34505, [251; 89; 91]);
   (34506, [15; 52; 56]);
   (34507, [25; 217; 89; 153; 148; 116; 91; 143; 155; 96; 4; 160; 32]);
   (34510, [89; 205; 91; 153; 155]);
   (34511, [89; 25]);
   (34512, [25; 89; 153]);
   (34513, [251; 89]);
   (34516, [25; 153]);
   (34520, [205]);
   (34521, [218; 89; 25; 56; 155; 79; 148]);
   (34523, [89; 25; 15; 153; 160]);
   (34526, [251; 25]);
   (34527, [91; 218; 25; 30; 155]);
   (34532, [25; 218; 153; 155; 89; 148; 91]);
   (34537, [205]);
   (34541, [205; 25; 89; 91]);
   (34542, [199; 64; 25; 89; 91; 0; 192; 153; 143; 20; 52; 15; 148; 67]);
   (34544, [52; 107]);
   (34545, [251; 25]);
   (34546, [25]);
   (34547, [251; 89]);
   (34548, [251; 25]);
   (34552, [251; 89]);
   (34553, [205; 89; 25]);
   (34558, [89; 25; 148; 143]);
   (34560, [209; 30; 89; 25; 155; 32; 91; 235; 153; 148; 79; 20; 15]);
   (34562, [25; 89; 217; 52; 71; 91; 15; 153; 155; 116; 84; 218; 148; 4; 143; 30]);
   (34563, [143; 25]);
   (34567, [89; 244; 153; 107]);
   (34568, [25; 155]);
   (34569, [25; 143; 148; 89]);
   (34570, [89; 251]);
   (34573, [89; 251]);
   (34578, [116; 251; 89; 126; 25]);
   (34579, [89; 251; 143; 91]);
   (34581, [246; 52; 89; 15; 25]);
   (34583, [25; 89; 52]);
   (34584, [25; 32; 153]);
   (34586, [52; 143; 25; 20]);
   (34588, [25; 89; 217; 64; 91; 153; 143; 190; 126; 155; 148; 160; 116; 32; 158; 15]);
   (34590, [251]);
   (34593, [25; 217; 89; 153; 62; 116; 56; 96; 79; 190; 32; 126; 84; 15]);
   (34594, [251; 89; 91]);
   (34595, [25]);
   (34597, [25; 89]);
   (34601, [205]);
   (34606, [205; 89; 143]);
   (34609, [205]);
   (34612, [89; 251]);
   (34615, [52; 244]);
   (34619, [25; 15; 153]);
   (34622, [25]);
   (34623, [52; 62]);
   (34631, [89; 218; 91; 79; 20; 52; 25; 15; 160; 4]);
   (34632, [25; 89; 153]);
   (34633, [217; 52; 25; 91; 79; 155; 143; 89; 84]);
   (34636, [25])].
Definition pos_chars_20 : list (char * list N) :=
  [(34638, [218; 25; 89; 153; 91; 155; 116]);
   (34643, [89]);
   (34647, [25; 89; 116]);
   (34649, [25; 155]);
   (34656, [89; 251; 153; 91]);
   (34659, [89; 251]);
   (34660, [25; 251]);
   (34661, [89; 251]);
   (34670, [25]);
   (34672, [25]);
   (34674, [25]);
   (34676, [25; 30; 155]);
   (34678, [89; 218; 25; 153; 91; 32; 155; 158; 79]);
   (34683, [89]);
   (34684, [25]);
   (34685, [205; 91]);
   (34686, [25]);
   (34690, [89; 251; 160; 148]);
   (34691, [25]);
   (34693, [251; 89]);
   (34696, [251; 89; 91]);
   (34699, [251; 89]);
   (34701, [89; 56; 52; 153; 244; 25; 116; 27; 160; 30; 91; 145; 159; 20; 68; 155; 79; 126; 96; 64; 148; 62; 15; 143; 190; 92; 158; 120; 17; 29]);
   (34707, [15]);
   (34711, [205]);
   (34719, [89; 25; 153]);
   (34728, [205; 89; 153; 25]);
   (34731, [244; 25]);
   (34732, [89]);
   (34733, [205; 89]);
   (34735, [217; 32; 25; 91]);
   (34739, [25; 32; 20; 15]);
   (34741, [153; 251]);
   (34746, [25; 218; 89; 153; 91; 4; 155; 158; 30; 94; 32]);
   (34749, [25; 251]);
   (34752, [89; 251]);
   (34758, [251; 89; 91; 153; 148]);
   (34762, [205; 25]);
   (34763, [25]);
   (34769, [25]);
   (34770, [25; 89; 30; 158]);
   (34779, [251]);
   (34784, [91; 246; 25; 155; 30; 32; 94; 143; 79]);
   (34789, [89; 251]);
   (34794, [251; 25]);
   (34798, [251]);
   (34809, [218; 89; 25; 32; 160; 143; 116; 96]);
   (34814, [25; 92; 93; 15; 160]);
   (34819, [89; 251]);
   (34826, [251; 89]);
   (34835, [217; 25]);
   (34837, [52; 25; 62; 126; 20]);
   (34838, [251; 89; 153]);
   (34843, [251]);
   (34849, [205; 91; 155; 30; 143; 52]);
   (34850, [64; 192; 25; 15; 143; 0; 52; 91; 155]);
   (34866, [205; 52]);
   (34873, [25; 89; 79]);
   (34876, [251; 25]);
   (34880, [25; 217; 116; 153; 89; 20; 120; 143; 62; 0; 15; 148; 79; 160; 52; 68; 84; 17; 91; 96; 32; 155; 4; 159; 81]);
   (34884, [205]);
   (34885, [116; 205; 148; 120; 153; 155]);
   (34892, [116; 25; 89; 244; 81; 153; 95; 52; 120; 56; 64; 71; 86; 102; 68; 91; 17; 143; 79; 155; 158; 148; 159; 94; 84; 27; 132; 15; 214; 180; 160; 7; 20; 43; 32; 96; 12; 171; 88; 152; 0; 30; 92; 93; 28; 184; 156; 145]);
   (34893, [52; 56; 116; 25; 246; 91; 155; 160; 143; 79; 153; 92; 32; 120]);
   (34900, [244; 89; 52; 116; 155; 91; 143; 25; 158; 153; 120]);
   (34903, [217; 25; 42; 89; 94; 116; 143; 106; 91; 160; 76; 148; 32; 153; 158; 15; 155; 17; 56; 30; 120]);
   (34905, [25; 89; 30; 157; 155; 153]);
   (34913, [64; 116; 52; 91; 30; 89; 153; 219; 27; 79; 155; 96; 25; 143; 120; 65; 160; 68; 84; 29; 148; 92; 4; 180; 31]);
   (34914, [30; 89]);
   (34915, [25; 89; 218; 153; 116; 27; 143; 15; 155; 91; 20; 79; 120; 96; 148; 145; 160; 68; 158; 31; 30]);
   (34917, [52; 244; 25; 56; 116; 148; 68; 143; 32; 153; 120; 155; 180; 91; 79; 89; 81; 15; 17; 160]);
   (34920, [52; 89; 25; 116; 217; 153; 56; 160; 91; 159; 84; 120; 155; 96; 143; 68; 148; 79; 15; 102; 20; 32; 158]);
   (34921, [217; 89; 251]);
   (34923, [89; 218; 155; 91; 148; 96; 32; 153; 143]);
   (34924, [25; 244; 52; 116; 89; 91; 96; 155]);
   (34926, [93; 91; 205; 15; 143; 155; 29]);
   (34928, [52; 194; 0; 89; 153; 56; 116; 148; 84; 25; 79; 91; 160; 143; 32]);
   (34930, [102; 205; 153; 91]);
   (34935, [89; 116; 79; 180; 71; 143; 7; 25; 4; 120; 153]);
   (34941, [205; 116; 89; 79]);
   (34942, [205; 91]);
   (34943, [205; 91; 155]);
   (34945, [27; 219; 155; 91; 28; 30; 25]);
   (34946, [71; 218; 116; 143]);
   (34948, [205; 89; 91]);
   (34949, [62; 126; 15; 143; 190; 84; 148; 52]);
   (34952, [25]);
   (34955, [89; 227; 86; 25; 153; 96; 42; 88; 4; 91; 214; 79; 84; 94; 157]);
   (34957, [89; 218; 25; 143; 153; 15]);
   (34962, [52; 116; 246; 20]);
   (34966, [89; 25; 244; 15; 4; 143; 68; 91; 116; 96; 153; 148; 20; 218; 155; 79]);
   (34972, [25; 89; 218; 153; 96]);
   (34978, [244; 89]);
   (34980, [64; 205; 91]);
   (34987, [226; 25; 89; 7; 52; 0; 56; 4; 20; 17; 155; 96; 143; 116; 145; 94]);
   (34989, [244; 116; 52; 120; 143; 91; 25; 160; 153; 155]);
   (34993, [89; 205; 153]);
   (34996, [148]);
   (34999, [251; 25]);
   (35004, [251]);
   (35009, [89; 52; 25; 116; 244; 120; 64; 153; 56; 65; 79; 91; 32; 145; 155; 143; 159; 17]);
   (35010, [116; 25; 244; 52; 153; 79; 89; 120; 56; 148; 159; 4; 155; 15; 81; 143]);
   (35013, [25; 116; 52; 244; 89; 4; 153; 148; 120; 68; 56; 15; 143; 84; 159; 81; 96; 20; 91; 160; 32; 155; 132; 180; 71; 92; 17; 171]);
   (35014, [89; 153; 68; 25]);
   (35017, [205]);
   (35022, [205]);
   (35026, [205]);
   (35028, [89; 219; 91; 155]);
   (35029, [64; 91; 219; 155; 96; 32; 160; 158; 148; 30; 143; 156; 153; 79; 246; 132]);
   (35032, [27; 219; 25; 91; 89; 79; 155; 143; 29]);
   (35033, [218; 89; 25; 91; 4; 96; 155; 20; 79]);
   (35039, [89; 251]);
   (35042, [89; 251]);
   (35043, [251; 52]);
   (35044, [25; 89; 218; 153; 81; 96; 91]);
   (35045, [89]);
   (35048, [143; 25; 27]);
   (35056, [89; 205]);
   (35057, [244; 116; 52]);
   (35059, [89; 218; 91; 155]);
   (35060, [27; 219; 155; 91; 28]);
   (35064, [194; 52; 20; 4; 190; 126; 64; 25; 143; 56]);
   (35065, [244; 89; 116; 52; 25; 15; 143; 84; 155; 153]);
   (35068, [205; 155; 91]);
   (35070, [218; 89]);
   (35074, [218; 89; 25]);
   (35082, [194; 0]);
   (35088, [25; 153; 196; 218; 89; 32]);
   (35090, [52; 244; 91; 15; 25; 56; 29; 30; 148; 248; 116]);
   (35091, [89; 143]);
   (35097, [205; 116]);
   (35098, [27; 219; 155; 91]);
   (35099, [126; 84; 251; 143]);
   (35105, [25; 153]);
   (35109, [89; 25; 171; 153; 96]);
   (35114, [244; 52]);
   (35115, [52]);
   (35120, [205]);
   (35124, [62; 148; 15]);
   (35126, [25; 218; 89; 91; 153; 68; 155]);
   (35137, [25; 15]);
   (35140, [209; 30; 91; 155; 94; 29; 32; 157; 218; 246; 52; 93; 153; 25; 158]);
   (35166, [89; 205]);
   (35167, [89; 217; 143; 25; 68; 15; 91; 84; 155]);
   (35174, [205; 91]);
   (35195, [244; 89]);
   (35199, [94; 30; 89; 42; 204; 12; 25; 158; 27; 43; 91; 153; 155; 76; 93; 32; 140; 29; 31; 160; 145; 81; 159; 143; 52; 17; 148; 157; 4; 96; 20; 79; 106; 170; 132; 116; 84; 180; 15; 82]);
   (35201, [244; 68; 64; 116; 52; 71; 70; 25; 72; 6; 153; 89; 0; 148; 84; 143; 128; 20; 155; 65; 94; 15; 158; 56; 145; 79; 91]);
   (35203, [27; 219; 91; 155]);
   (35206, [52; 246; 25; 143; 116; 79; 91; 89; 148; 15; 56; 96; 32; 120; 153]);
   (35265, [244; 116; 52; 89; 64; 25; 143; 91; 155; 153; 79; 15; 70; 84; 180; 71; 148; 20; 135; 0; 22; 7; 102; 109; 93; 160; 150; 43; 92; 56; 96]);
   (35266, [89; 25; 52; 64; 246; 56; 116; 153; 91; 84; 96; 143; 120; 155; 158; 27; 79; 30; 148; 20; 94; 32; 15; 81; 160; 65; 159; 29]);
   (35268, [25; 52; 89; 132; 120; 218; 148; 116; 64; 128; 153; 56; 68; 91; 20; 184; 0; 135; 143; 62; 190; 79; 155; 159; 32; 84; 246; 17; 129; 93; 160; 81; 180; 15]);
   (35269, [52; 244; 116; 143; 84; 148; 91; 27; 246; 155]);
   (35270, [116; 25; 89; 246; 153; 52; 68; 81; 84; 159; 143; 15; 64; 120; 91; 79; 95; 184; 148; 160; 145; 96; 20; 56; 158; 17]);
   (35271, [205]);
   (35272, [116; 153; 120; 244; 89; 91; 148; 143; 246; 158; 155; 52; 160]);
   (35273, [52; 89; 116; 244; 71; 64; 79; 25; 91; 155; 153; 84; 148; 120; 157; 56; 29; 31; 27; 158; 94]);
   (35274, [52]);
   (35275, [205]);
   (35276, [205; 91]);
   (35278, [116; 251]);
   (35279, [246]);
   (35280, [116; 52; 205; 153; 120; 155; 91]);
   (35281, [244; 79; 116; 91]);
   (35282, [25; 89; 153; 227; 217; 158; 86; 76; 52; 79; 94; 96; 81; 148; 30; 91; 106; 214; 143; 155; 68; 170; 84; 93; 160; 116; 32; 56; 180; 42; 92; 35; 159]);
   (35286, [205]);
   (35290, [218]);
   (35292, [205]);
   (35294, [244; 89; 116]);
   (35299, [52; 116; 244; 25; 153; 89; 27; 159; 120; 32; 84; 56; 43; 79; 148; 64; 143; 91; 15; 155; 31; 30; 145; 20; 160; 0; 3; 81; 28; 180; 156; 17]);
   (35301, [15]);
   (35302, [116; 52; 244; 25; 143; 89; 15; 120; 153; 84; 132; 160; 32; 20; 68; 56; 91; 4; 148; 155]);
   (35307, [116]);
   (35311, [205]);
   (35313, [25]);
   (35315, [251; 52]);
   (35328, [89; 246; 109; 116; 143; 25; 153; 27; 148; 91; 52; 79; 15; 84; 70; 134; 102; 155; 68; 20; 71; 96; 92; 64; 159; 32; 158; 120; 160; 126]);
   (35335, [89; 251; 155; 91]);
   (35390, [219; 27]);
   (35400, [205]);
   (35449, [27; 219; 28; 29; 91; 155; 30; 157]);
   (35465, [89; 52; 218; 116; 153; 91; 120; 84; 79; 246; 143; 96; 155; 25; 64; 20]);
   (35466, [244; 52; 91; 25]);
   (35475, [246; 116; 25; 89; 52; 7; 143; 79; 91; 15; 155; 153; 148]);
   (35591, [205; 91]);
   (35622, [251]);
   (35686, [25; 52; 89; 81; 56; 116; 218; 120; 153; 64; 159; 180; 148; 17; 4; 155; 32; 20; 91]);
   (35692, [52; 20]);
   (35745, [116; 25; 120; 52; 244; 89; 153; 143; 159; 79; 20; 56; 27; 84; 17; 71; 160; 91; 148; 96; 135; 180; 15; 4; 155; 132; 93; 32; 156; 29]);
   (35746, [116; 25; 52; 244; 56; 153; 4; 120]);
   (35747, [25]);
   (35748, [52; 116; 1; 244; 56; 25; 148; 180; 32; 79; 190; 62; 153; 89; 84; 91; 0; 15; 143; 159; 17]);
   (35749, [52; 246; 79; 56; 91]);
   (35750, [120; 205; 91]);
   (35751, [116; 205; 120]);
   (35752, [52; 116; 244; 153; 15; 120; 25; 56; 143; 20; 0; 79; 148; 4]);
   (35753, [244; 116; 52; 153; 91; 79; 56; 84; 155; 94; 93; 148; 160; 120; 25; 158; 89; 30]);
   (35754, [116; 52]);
   (35755, [205; 116; 89; 84; 155]);
   (35757, [56; 120; 89; 244; 25; 52; 116; 91; 153; 15; 81; 155; 160; 159; 17; 79; 158; 145]);
   (35758, [89; 25; 116; 244; 52; 153; 120; 79; 96; 159; 84; 91; 15; 56; 155; 95; 81; 158; 148; 20]);
   (35759, [96; 89; 218; 153; 116; 95; 25; 91; 143; 159; 52; 120; 148; 79; 81; 160; 56; 32; 155]);
   (35760, [25; 89; 52; 244; 116; 153; 160; 86; 96; 159; 91; 20; 148; 4; 15; 56; 155; 135; 32; 79; 64; 180; 81; 17; 145; 214; 132]);
   (35762, [244; 52; 25; 116; 153; 56; 84; 70; 148; 30; 120; 81; 20; 15; 91; 145; 143]);
   (35763, [116; 246; 79; 52; 15; 143; 120; 84; 91; 155]);
   (35764, [52]);
   (35765, [199]);
   (35766, [64; 116; 52]);
   (35767, [30; 126; 62; 64; 158]);
   (35768, [22; 71; 116; 214; 27; 52; 30; 25; 86; 150; 91; 89; 32; 153; 155; 28; 143; 244; 93; 120; 166; 160; 158]);
   (35769, [244; 25; 52; 79; 143; 89; 153; 56]);
   (35770, [89; 244; 25; 116; 70; 52; 120; 56; 148; 153; 134; 79; 32; 84; 109; 143; 91; 180; 160; 15; 96; 159; 20; 155; 132]);
   (35772, [120; 246; 153; 84; 116; 25; 89; 79; 68; 17]);
   (35773, [52; 116; 56; 246; 25; 120; 79; 143; 91]);
   (35774, [120; 25; 52; 56; 244; 116; 159; 89; 153; 143; 84; 155; 91; 158; 6; 15; 68; 81; 30; 79; 148]);
   (35775, [116; 52; 244; 153; 89; 56; 79; 81; 25; 148; 91; 120; 155; 159; 15; 27; 17; 160]);
   (35776, [218; 89; 25; 52; 116; 56]);
   (35777, [25; 116; 52; 81; 217; 89; 159; 153; 17; 120; 91; 64; 160; 145; 148; 155; 96; 180; 20; 143; 32; 79; 158; 132]);
   (35778, [89; 205]);
   (35779, [205; 155; 91; 29]);
   (35780, [52; 56; 25; 116; 244; 89; 153; 120; 91; 81; 32; 84; 143; 159; 15; 155; 20; 17; 145]);
   (35781, [52; 116]);
   (35782, [89; 116; 153; 244; 52; 148; 143; 79; 84; 25; 71; 91; 0; 159; 20; 56; 15; 155; 120; 180; 68; 132; 32; 64]);
   (35784, [244; 52; 120; 56; 64; 116; 143; 25; 79; 153; 160; 91; 89; 248]);
   (35785, [116; 56; 52; 120; 217; 153; 25; 148; 79; 246; 20; 160; 132; 143; 91; 89]);
   (35786, [52; 116; 246; 25; 153; 89; 56; 81; 148; 120]);
   (35787, [52]);
   (35788, [246; 116]);
   (35789, [217; 89; 25; 79; 116; 91; 143; 153; 155; 71; 84; 148; 15; 180]);
   (35790, [194; 205]);
   (35791, [218; 25; 89; 91; 155; 30; 153]);
   (35793, [116; 244; 25; 89; 52; 153; 91; 148; 155; 68; 120; 17; 84; 159; 32; 81]);
   (35794, [205; 91; 155]);
   (35795, [244; 52]);
   (35796, [205]);
   (35797, [52; 56; 120; 244; 116; 25; 89; 153; 79; 180; 81; 143; 148; 160; 91; 32; 159]);
   (35798, [205; 52]);
   (35799, [25; 217; 89; 91; 116; 155; 27; 84; 15; 153; 20; 157; 148; 132; 52; 79; 32; 96; 143; 92]);
   (35800, [52; 116; 56]);
   (35801, [246; 0]);
   (35802, [91; 64; 0; 192; 25; 143; 52; 116; 155; 15; 7; 20; 71; 89; 153; 32; 96; 145; 148; 159; 65; 92; 120; 84; 128; 3]);
   (35803, [52; 143; 89; 79; 116; 15; 84]);
   (35804, [251]);
   (35805, [217; 89; 116; 109; 25; 102; 120; 84; 153; 148; 143; 134; 64; 79; 15; 70; 81; 20; 159; 52; 91; 155; 160; 96]);
   (35806, [52; 107; 171; 64; 153; 25; 89; 143; 148; 43]);
   (35807, [25; 52]);
   (35808, [52; 25]);
   (35809, [0; 194; 25; 143; 52; 15; 155; 56]);
   (35810, [52; 120; 116; 246; 153; 91; 155; 159; 81; 160; 171; 25; 93])].
Definition pos_chars_21 : list (char * list N) :=
  [(35811, [89; 244; 79; 91; 155]);
   (35812, [246; 116; 25; 91; 52]);
   (35813, [230; 116; 38; 52; 71; 7; 32; 143; 25; 91; 155]);
   (35814, [0; 1; 194; 116; 25; 52; 64; 79; 91; 190; 62; 155]);
   (35815, [0; 64; 148]);
   (35816, [25; 79; 116]);
   (35817, [205; 91; 116; 155]);
   (35819, [116; 120; 79; 52]);
   (35820, [52; 246; 56; 25; 116; 143]);
   (35821, [25; 89; 96; 218; 116; 79; 91; 244; 153; 84; 15; 155; 148; 27; 143; 52; 159; 180; 160; 31; 20; 30; 32]);
   (35822, [205; 116; 120; 91]);
   (35823, [89; 116; 25; 244; 52; 120; 56; 15; 91; 148; 20; 79; 84; 153; 143; 180]);
   (35824, [25; 56; 116]);
   (35825, [52; 56; 246; 25; 116; 0; 79; 20; 32; 120; 160; 155]);
   (35826, [116; 246; 15; 91; 143; 84; 155]);
   (35827, [244; 25]);
   (35828, [244; 52; 116; 89; 109; 84; 70; 25; 20; 143; 92; 148; 79; 153; 180; 15; 71; 64; 120; 134; 56; 91; 4; 159; 155]);
   (35829, [116; 246; 52; 91; 153; 120; 79; 155; 25; 89]);
   (35830, [202]);
   (35831, [244; 116; 52; 25; 153; 143; 91; 56; 155; 15; 148; 160; 79]);
   (35832, [230; 27; 25; 22; 38; 52; 91; 116; 155; 30; 158; 148; 20; 15; 143; 28; 159]);
   (35833, [205]);
   (35834, [116; 91; 32; 219; 29; 155; 158; 27; 30; 25; 94; 93; 218; 96; 157; 153; 160; 89; 159; 84; 148; 246; 31; 62; 190; 79; 143]);
   (35835, [116; 244; 52; 25; 120; 153; 68; 89; 81; 155; 84; 32; 91; 15; 160; 79; 159; 143; 64]);
   (35836, [205; 89]);
   (35837, [52; 25; 116; 56]);
   (35838, [25; 217; 116; 89; 43; 52; 4; 153; 120; 91; 81]);
   (35839, [246; 116; 84]);
   (35840, [205; 116; 143]);
   (35841, [230; 52; 38; 143; 15; 148; 79; 20; 91; 155]);
   (35842, [205; 91; 155]);
   (35843, [56; 116; 52; 244; 89; 25; 153; 0; 155; 64; 148; 32; 120; 84; 96; 143; 15; 91; 180; 79; 30; 81; 159; 160; 145; 17; 20]);
   (35844, [52; 143; 15]);
   (35845, [116; 52; 244; 91; 30; 120; 155; 148]);
   (35846, [71; 7; 20; 148; 15; 143]);
   (35847, [205]);
   (35848, [244; 56; 52; 116; 120; 153; 79; 89; 15; 27; 25; 143; 96; 148; 20; 84; 160; 64; 91; 180; 155; 32; 145]);
   (35850, [91; 89; 96; 155; 218; 158; 153; 116; 160; 159; 79; 120]);
   (35851, [89; 52; 244; 153; 116; 25; 143; 91; 79; 155; 148; 120; 84; 158; 159; 15; 94; 56; 92]);
   (35852, [219; 27; 91; 155]);
   (35853, [89; 25; 153; 160]);
   (35854, [218; 116; 25; 52; 153; 79; 91]);
   (35855, [246; 91; 116; 52; 120; 155; 84; 143; 79; 25; 30]);
   (35856, [64; 194; 25; 0; 116; 91; 62; 148; 79; 160]);
   (35857, [205; 116; 126; 91]);
   (35858, [246; 116; 91; 155; 52]);
   (35859, [116; 244; 84; 89; 25; 68; 91; 155; 246; 120; 15]);
   (35860, [251; 91]);
   (35861, [218; 89; 25; 116; 246; 91; 155]);
   (35862, [205; 91]);
   (35863, [246; 25; 143]);
   (35864, [205; 91; 29]);
   (35865, [116; 52; 0; 148]);
   (35866, [25; 89]);
   (35867, [89; 52]);
   (35868, [217; 25; 89; 116; 91; 180]);
   (35869, [205]);
   (35871, [205; 91; 155; 94; 158]);
   (35872, [205; 91; 155]);
   (35873, [205; 91; 89; 155]);
   (35874, [116; 27; 244; 52; 79; 91; 120; 153; 28; 93; 143; 155; 15; 25; 29; 148; 157; 30; 84; 32; 158]);
   (35875, [25; 89; 116; 218; 52; 91; 143; 56; 20; 155]);
   (35876, [116; 205; 153; 52; 120]);
   (35877, [246; 25; 91]);
   (35878, [155; 91; 0; 219; 52; 246; 15; 92; 25; 143; 20; 93; 158]);
   (35879, [64; 205; 91; 155; 92]);
   (35880, [0; 199; 64; 143; 52; 91; 15; 155; 153]);
   (35881, [52; 56; 25]);
   (35882, [246; 52; 120; 91]);
   (35883, [205]);
   (35884, [64; 25; 219; 218; 89; 143; 153; 52; 91; 20]);
   (35885, [27; 248; 219; 91; 79; 155; 28]);
   (35886, [205]);
   (35887, [219; 25; 155; 30; 158]);
   (35888, [25]);
   (35889, [89; 244; 153; 25; 218; 91; 116; 84; 64; 52; 148; 68; 155; 96; 160; 128; 120; 180]);
   (35890, [64; 205]);
   (35891, [205; 91]);
   (35892, [52; 246]);
   (35893, [25; 52]);
   (35894, [25]);
   (35895, [89; 25; 218; 27; 91; 94; 219; 153; 30; 155; 95; 158; 93; 160; 79; 43; 143; 116; 32; 20; 96; 156; 15; 148; 29]);
   (35905, [52; 244; 25; 0; 15; 7; 64; 91]);
   (35910, [89; 25; 217; 153; 91; 160; 155; 27; 148; 143; 96; 79; 180; 94; 15; 30; 116; 4; 32; 159; 84]);
   (35911, [25]);
   (35913, [89; 251; 25]);
   (35916, [25; 153; 160]);
   (35925, [205; 143; 79]);
   (35930, [89; 25]);
   (35937, [89; 217; 116; 52; 153; 25; 64; 155; 84; 218; 91; 30; 20; 148; 159; 180; 79; 96; 143; 0; 29; 158; 94; 160; 15]);
   (35938, [246; 52]);
   (35944, [25]);
   (35946, [25; 0; 89; 194; 155; 91; 64; 29; 52; 153; 15; 148; 143; 84; 96; 32; 158; 93; 30]);
   (35947, [64; 209; 30; 84; 91; 81; 25; 155; 143; 145; 89; 190; 126; 148; 158; 17; 32; 116; 159]);
   (35955, [205]);
   (35960, [89; 205; 158]);
   (35961, [89; 217; 25; 91; 96; 79; 218; 84; 143; 153; 155; 93]);
   (35962, [25; 20; 15]);
   (35970, [217; 25; 89; 155; 153; 91; 116]);
   (35973, [89; 251]);
   (35977, [218; 79; 25]);
   (35978, [205]);
   (35980, [89; 218; 67; 96; 52; 143; 153; 79; 91; 148; 15; 84; 155; 20]);
   (35988, [25]);
   (35992, [205]);
   (36125, [27; 89; 25; 160; 155; 209; 30; 91; 29; 158; 157; 32; 99; 153; 159; 93; 96; 116; 31; 17; 143]);
   (36126, [155; 91; 219; 32; 89; 28; 25; 27; 143; 64; 20; 96; 153; 92; 0; 148; 159; 30; 4]);
   (36127, [25; 52; 244; 116; 4; 56; 89; 153; 148; 143; 79; 135; 15; 81; 84; 3; 20; 132; 120; 155; 160; 91]);
   (36129, [25; 219; 27; 91; 116; 94; 158; 30; 218; 155; 246; 89; 93; 153; 29]);
   (36130, [25; 116; 217; 31; 17; 89; 159; 143; 81; 79; 84; 148; 91; 155; 15; 64; 20; 145; 153; 96; 160]);
   (36131, [116; 25; 153; 52; 89; 148; 218; 84; 120; 15; 56; 159; 79; 91; 17; 145; 155; 143; 160; 20; 81]);
   (36132, [91; 218; 25; 89; 155; 143; 116; 93; 0; 148; 84; 158; 15; 20; 96; 79; 180; 194]);
   (36133, [116; 244; 67; 52; 25; 89; 143; 153; 148; 120; 91; 64; 15; 0; 180; 155; 84; 79; 20; 56; 4; 1; 96]);
   (36134, [25; 217; 116; 89; 132; 84; 120; 153; 81; 79]);
   (36135, [25; 89; 217; 148; 153; 116; 20; 159; 120; 96; 56; 15; 145; 81; 143; 79; 91; 32; 95; 31; 17; 160; 158; 94; 171]);
   (36136, [89; 25; 218; 153; 52; 68; 116; 84; 91; 0; 96; 17; 4; 184; 120; 148; 155; 159; 56; 79; 143; 31; 32; 158; 64; 180; 20; 15; 160]);
   (36137, [244; 52; 89; 153; 25; 56; 15; 148; 120; 91]);
   (36138, [52; 244; 0; 25; 15; 145; 143; 120; 20; 89]);
   (36139, [0; 25; 194; 56; 52; 64; 3; 120; 17; 116; 148; 143; 20; 68; 84; 79; 15; 159; 91; 145; 153; 89]);
   (36140, [52; 244; 116; 56; 25; 143; 84]);
   (36141, [116; 52; 120; 25; 246; 56; 153; 160; 89; 148; 32; 20; 158; 81]);
   (36142, [52; 244; 25; 120; 56; 153; 116; 81; 32; 91; 4]);
   (36143, [52; 91; 116; 219; 71; 143; 68; 155; 89; 64; 86; 153; 246; 79; 25; 150; 4; 156; 148; 15; 20]);
   (36144, [214; 22; 25; 91; 150]);
   (36145, [192; 25; 64; 89; 116; 52; 84; 15; 155; 143; 79; 148; 91]);
   (36146, [219; 91; 89; 25; 155; 27]);
   (36147, [205]);
   (36148, [244; 89; 52; 116; 25; 56; 0; 64; 153; 120; 91; 143; 96; 32; 155; 148; 190; 126; 1]);
   (36149, [25; 64; 192; 30; 155; 91; 89; 0; 79; 158; 143; 52; 31; 32; 84; 29; 148; 15; 153; 92; 56; 20; 38; 159; 156; 157]);
   (36150, [205; 91]);
   (36151, [25; 89; 244; 81; 116; 153; 120; 91; 145; 79; 17; 180]);
   (36152, [56; 89; 81; 148; 25; 159; 7; 153; 217; 160; 132; 246; 17; 158; 32; 68; 145; 95; 91; 143; 218; 209]);
   (36153, [120; 89; 153; 25; 116; 244; 27; 0; 30; 52; 148; 29; 155; 91; 143; 20; 96; 71; 15; 157; 159; 79; 64; 32; 93; 67; 81; 160; 84; 28; 180; 1]);
   (36154, [27; 246; 116; 30; 91; 52; 155; 56; 25; 28; 64; 94; 158; 148; 93; 153]);
   (36155, [52; 246; 25; 155; 15; 91]);
   (36156, [217; 89; 25; 143; 192; 15; 62; 148; 79; 20; 116; 153]);
   (36157, [91; 205]);
   (36158, [27; 219; 155; 91; 89; 158; 28; 84; 79; 29; 30; 20; 93; 94]);
   (36159, [116; 52; 218; 153; 25; 17; 15; 246; 79; 120; 56; 180]);
   (36160, [205; 155; 79]);
   (36161, [116; 153; 244; 91]);
   (36162, [116; 218; 153; 143; 120]);
   (36163, [116; 25; 218; 143; 120; 89; 79]);
   (36164, [25; 120; 153; 89; 148; 116; 218; 4; 52; 84; 159; 81; 56; 30; 160; 96; 68; 20; 91; 155; 29; 32; 145; 79; 71; 17; 28]);
   (36165, [79; 246]);
   (36166, [205]);
   (36168, [52; 56; 84; 25]);
   (36169, [205; 155; 91; 93; 158]);
   (36170, [244; 52; 25]);
   (36171, [244; 52; 25; 89; 91; 217; 148; 84; 155; 116; 143; 96]);
   (36172, [244; 52; 25; 116; 84; 15; 120; 56; 145]);
   (36173, [205]);
   (36174, [52; 56; 244; 25; 143]);
   (36175, [116; 244; 52; 25; 0; 89; 148; 15; 153; 91; 79; 155; 120; 84; 56; 143; 160]);
   (36176, [244; 89; 116; 155; 52; 91; 120; 56; 143; 148; 153]);
   (36179, [91; 219; 155]);
   (36180, [52; 244; 116; 25; 20; 120; 160; 153; 15; 91; 56]);
   (36181, [205]);
   (36182, [116; 244; 89; 27; 153; 52; 180; 155; 20; 25; 91; 29; 79; 64; 159; 157; 143; 84; 94; 158; 93; 148]);
   (36184, [67; 194; 116; 25; 52; 148; 91]);
   (36185, [246; 52]);
   (36186, [244; 52; 116; 25; 91; 148; 84]);
   (36187, [120; 89; 244; 25; 32; 155; 91; 27; 116; 94; 52; 248; 153; 160; 43; 96; 158; 157; 29; 81; 15; 30; 56; 143; 148; 93; 20]);
   (36188, [205; 91; 155]);
   (36189, [197; 25]);
   (36190, [52; 116; 244; 91; 25; 155; 30; 89; 209; 56; 29; 15; 246; 92; 84; 20; 93; 79; 160; 32; 31; 157]);
   (36192, [116; 52; 244; 25; 120; 153; 91; 155; 56]);
   (36193, [246; 52; 25; 56; 89]);
   (36194, [244; 52; 25; 116; 89; 91; 155; 32; 153]);
   (36195, [209; 30; 81; 160; 32; 155; 91; 25; 12; 219]);
   (36196, [25; 246; 30; 91; 62; 194; 15; 0; 89; 155; 52; 79; 32; 27; 4; 29; 160; 93; 143; 20; 159; 153; 158; 190; 148; 126]);
   (36198, [52; 116; 79; 143; 25; 153; 120; 84; 56]);
   (36199, [205; 155; 64; 52; 91; 157]);
   (36203, [27; 91; 155; 62; 219; 64; 227; 29; 99; 30; 35; 93; 143; 126; 158; 15; 153; 160; 32; 96; 157; 84; 31; 20; 190; 94; 159]);
   (36205, [25; 4]);
   (36208, [244; 52; 25; 116; 143; 20; 153; 56; 15; 148; 84; 120; 79; 180; 0; 89; 91; 158; 64; 132; 81; 107; 4; 155]);
   (36211, [251; 126; 190]);
   (36212, [244; 116; 52; 79; 143; 15; 155; 148; 91]);
   (36213, [27; 219; 91; 155; 28; 107; 30; 79; 94; 25; 29]);
   (36214, [7; 52; 244; 116; 143; 15; 84; 153; 94; 43]);
   (36215, [52; 244; 116; 106; 25; 86; 148; 7; 56; 143; 180; 79; 214; 155; 153; 64; 160; 120; 84; 91; 94; 0; 15; 32; 4; 128; 89; 92; 71; 20; 45; 159; 134; 29; 43; 68; 156]);
   (36225, [244; 7; 34; 226; 15; 91; 20; 155]);
   (36228, [116; 244; 180]);
   (36229, [52; 244; 25; 91; 4; 155; 0; 64; 116; 14; 32; 42; 20; 17; 7; 56; 15; 81; 92; 30; 158; 62; 53; 31; 1; 120; 27; 143]);
   (36234, [199; 7; 71; 116; 30; 64; 91; 52; 27; 25; 153; 155; 56; 94; 89; 32; 96; 132; 143; 17; 79; 31; 20; 15; 148; 126; 81; 92; 29; 158; 171]);
   (36235, [25; 52; 244; 71; 79; 15; 148; 91; 56; 153]);
   (36241, [52]);
   (36244, [52; 180]);
   (36255, [86; 227; 214; 116; 25; 20; 180]);
   (36259, [89; 64; 25; 218; 116; 143; 84; 79; 180; 148; 153; 128; 91; 155; 194]);
   (36273, [205; 91]);
   (36275, [64; 116; 192; 52; 153; 25; 143; 7; 79; 126; 89; 180; 71; 38; 148; 17; 12; 159; 15; 91; 155; 158; 94; 32; 84; 120; 145; 81; 68; 95; 53; 29]);
   (36276, [52; 244]);
   (36277, [25; 205]);
   (36280, [246; 25; 7]);
   (36282, [205; 52; 116]);
   (36284, [205; 155]);
   (36286, [89; 153; 15; 25]);
   (36287, [244; 52]);
   (36291, [116; 52; 246; 120; 65; 155; 91; 148; 15; 143; 160; 153; 132; 84; 25; 30; 20; 79; 89; 56; 92; 64]);
   (36292, [116; 126; 190; 251]);
   (36294, [25]);
   (36299, [91; 218; 52; 0; 143; 89; 15; 25; 56; 116]);
   (36300, [116; 244; 25; 52; 145; 190; 62; 148; 20; 153; 56; 0]);
   (36302, [251; 116; 143]);
   (36303, [251; 52]);
   (36305, [244; 116; 52; 25; 153; 89; 20; 94; 148; 120; 30; 79; 84; 32; 180; 143; 56; 158; 160; 159]);
   (36310, [205; 153; 25; 91]);
   (36311, [25]);
   (36314, [116; 251; 84; 91; 120]);
   (36315, [25; 52; 192]);
   (36317, [25; 226; 89; 116; 153; 160; 135; 96; 148; 120]);
   (36318, [251; 91]);
   (36319, [226; 52; 244; 12; 89; 25; 116; 135; 153; 180; 148; 155; 32; 56; 91; 7]);
   (36323, [205; 143]);
   (36324, [218; 116; 120]);
   (36328, [244; 52; 25; 56; 4; 116; 89; 20; 81]);
   (36330, [244; 52; 116; 25; 56]);
   (36331, [251; 91]);
   (36332, [205; 148; 25]);
   (36335, [89; 217; 25; 86; 42; 116; 94; 153; 96; 52; 148; 27; 91; 30; 102; 84; 158; 214; 79; 29; 155; 93; 32; 143; 76; 159; 150; 120; 160; 95; 163; 145; 68; 15; 157; 170; 20; 64; 92; 88; 12; 81]);
   (36339, [244; 52; 116; 56; 25; 79; 84; 143; 91; 153; 158; 89; 120; 4; 180; 159; 148; 62; 190; 155; 15; 32; 160]);
   (36341, [116; 52; 246; 93; 153; 155; 91; 84; 56]);
   (36343, [64; 244; 25; 153; 0; 89; 116; 91]);
   (36344, [116; 205]);
   (36345, [251; 116]);
   (36346, [244; 52; 180]);
   (36347, [52]);
   (36349, [205]);
   (36357, [244; 91]);
   (36361, [52; 62; 190]);
   (36362, [1]);
   (36364, [52; 15; 20]);
   (36367, [244; 52; 116; 0; 25; 135; 143; 153; 96; 190; 62; 56; 15; 155; 20; 120; 132; 30]);
   (36372, [205; 15]);
   (36381, [89; 25; 153]);
   (36382, [116; 246; 79; 143]);
   (36383, [52]);
   (36386, [244; 52; 79; 25; 20; 153]);
   (36387, [205]);
   (36393, [244; 52; 25]);
   (36394, [116; 25; 218; 89; 79; 143; 68; 153; 160; 120; 148; 96]);
   (36396, [246]);
   (36398, [244; 52]);
   (36399, [52; 153]);
   (36401, [244; 52]);
   (36405, [143; 205; 116; 79; 15; 89]);
   (36409, [244]);
   (36410, [25]);
   (36413, [62; 126; 15; 143])].
Definition pos_chars_22 : list (char * list N) :=
  [(36416, [52; 205]);
   (36417, [52; 205]);
   (36418, [52; 56]);
   (36420, [153; 89; 25; 218; 79; 68; 160; 84; 91; 158; 32]);
   (36423, [219; 79; 91; 194; 116]);
   (36424, [89; 153; 116; 143; 246; 79; 159; 52; 171; 91]);
   (36425, [52; 15]);
   (36426, [0; 148; 64; 143; 25]);
   (36427, [116; 244; 120]);
   (36433, [62; 190; 244; 52; 15]);
   (36434, [52; 148; 56]);
   (36441, [246; 52; 143]);
   (36448, [89]);
   (36454, [244; 52; 148; 180; 143; 190; 126; 25; 153; 91]);
   (36457, [0]);
   (36460, [244; 89; 52; 64; 25; 155; 116; 153]);
   (36461, [244; 116; 126; 190; 0]);
   (36463, [205]);
   (36464, [116; 251]);
   (36466, [244; 52; 25; 20]);
   (36468, [143; 205; 25]);
   (36470, [143; 205; 180; 79]);
   (36476, [217; 52; 89; 25]);
   (36479, [244; 52; 148]);
   (36481, [64; 244; 52; 0; 79; 25; 84; 56; 190; 126; 155]);
   (36485, [116; 251; 89]);
   (36487, [116; 143; 148; 251]);
   (36495, [116; 120; 251]);
   (36496, [205]);
   (36500, [205]);
   (36508, [205]);
   (36510, [116]);
   (36523, [25; 116; 42; 89; 102; 218; 52; 12; 143; 86; 71; 15; 120; 153; 148; 79; 64; 68; 20; 91; 84; 155; 96; 135; 214; 160; 92; 180; 65]);
   (36524, [52; 218; 246; 116; 143; 91; 20; 153; 15]);
   (36527, [25; 89; 218; 84; 116; 79]);
   (36530, [244; 52; 148; 20; 116; 143; 180; 91; 79; 84]);
   (36538, [244; 52; 116; 25; 91; 148; 153]);
   (36710, [89; 25; 217; 116; 153; 42; 27; 102; 159; 86; 17; 94; 30; 84; 52; 143; 68; 95; 120; 81; 158; 4; 96; 32; 214; 91; 15; 79; 155; 160; 20; 148; 93]);
   (36711, [116; 244; 52; 25; 153; 120; 160; 155; 81; 32; 91]);
   (36712, [25; 218; 89; 116; 68; 120; 153; 91; 32; 148; 79; 64]);
   (36713, [91; 219; 27; 15; 25; 0; 155; 218; 143; 30; 96; 32]);
   (36715, [205]);
   (36716, [52; 244; 116; 25; 56; 120; 153; 6; 143; 7; 91; 15; 43; 79; 64; 20; 148; 155; 84; 135; 89; 17; 132; 180; 81; 184; 160; 32; 145]);
   (36717, [205; 153]);
   (36718, [227; 25; 89; 86; 52; 153; 102; 7; 4; 214; 96; 56; 81; 159; 148; 30; 160; 95; 91; 143; 68; 132; 155; 92; 32]);
   (36719, [25; 192; 64; 0; 52; 20; 62; 17; 116; 89; 126; 15; 79; 32; 159; 4; 91; 81; 148; 155; 143; 153; 180; 65; 67]);
   (36720, [52; 244; 25; 15; 143; 33; 7; 116; 56; 161; 91; 190; 62; 20; 148]);
   (36721, [25; 52; 153; 148]);
   (36722, [251; 91; 155]);
   (36723, [89; 251]);
   (36724, [217; 89; 25; 153; 148; 96; 160; 32; 91; 227; 116; 180; 71; 88; 158; 79]);
   (36725, [205; 30]);
   (36726, [25]);
   (36728, [91; 205; 155]);
   (36729, [205; 91]);
   (36730, [205]);
   (36731, [192; 7; 64; 0; 25; 71; 116; 153; 62; 190; 52; 4; 143; 15; 17; 79; 56; 148; 180; 91; 155; 20; 30; 160; 81; 158; 96; 32; 84; 1; 159; 132]);
   (36732, [89; 91; 205; 92]);
   (36733, [116; 244; 25; 52; 68; 86; 120; 4; 89; 148; 143; 56; 153; 91; 79; 155; 214; 92; 15; 132; 32; 160]);
   (36734, [91; 251]);
   (36735, [25; 218; 209; 89; 153; 148; 84]);
   (36738, [205; 91; 155]);
   (36739, [199; 71; 0; 7; 116; 52; 34; 153; 79; 4; 56; 25; 30; 148; 160]);
   (36740, [71; 201; 143; 116; 205]);
   (36741, [89; 56; 52; 246; 25; 218; 91; 116; 155; 32; 143; 160; 148; 153; 94; 81]);
   (36742, [86; 89; 214; 227; 88; 153; 159; 22; 96; 150]);
   (36743, [205; 89; 160; 91]);
   (36744, [150; 89; 217; 25; 102; 86; 52; 148; 35; 84; 79; 171; 153; 143; 22; 214]);
   (36745, [91; 0; 219; 89; 25; 143; 155; 116; 218; 30; 52; 153; 79; 94; 160; 32; 96; 31; 158; 29; 84]);
   (36746, [89; 96; 25]);
   (36747, [89; 205]);
   (36749, [246; 52; 116; 84]);
   (36750, [25]);
   (36751, [218; 116]);
   (36752, [52; 25; 153; 218; 160; 4; 89; 42; 32; 96; 91; 148]);
   (36753, [89; 227; 153; 52; 84; 120; 91; 214; 148; 246; 86; 25; 155; 116; 56]);
   (36755, [120; 52; 244; 153; 25; 56; 116; 20; 30; 159; 81; 79; 155; 32; 84; 91; 160; 17]);
   (36756, [25; 116; 143]);
   (36757, [89; 25; 155; 143; 158; 116; 91]);
   (36758, [244; 116; 153; 25; 89; 52; 42; 120]);
   (36759, [52; 15; 20]);
   (36760, [89; 25; 148; 84; 116]);
   (36761, [89; 79; 217; 91; 116; 64; 160; 84; 92; 155]);
   (36762, [251; 155; 91]);
   (36763, [52; 27; 0; 32; 219; 91; 64; 22; 158; 143; 62; 190; 155; 30; 93; 25; 89; 159; 29; 79; 153; 157; 94; 148; 20; 67; 31; 28; 160]);
   (36764, [52; 89; 27; 219; 84; 79; 91; 153]);
   (36766, [52; 244; 116; 89; 25; 79; 143; 91; 153; 148; 120; 96; 117; 84; 20; 155; 159; 15]);
   (36767, [116; 244; 27; 52; 64; 143; 148; 155; 120; 79; 25; 91]);
   (36771, [25; 244; 64; 126; 190; 192; 79; 155; 153; 84; 160; 68; 148; 91; 0; 62; 89]);
   (36776, [52; 246; 116; 0; 153; 120; 91; 56; 84; 143; 25]);
   (36777, [52; 25; 116; 246; 56; 153; 91; 20; 120; 117; 89; 84; 64; 79; 148; 15; 0]);
   (36779, [25; 218; 89; 153; 180; 148; 68]);
   (36784, [89; 218; 91; 155; 96; 25; 86; 143; 32; 29; 79; 215; 94; 30; 150; 43; 171; 148; 159]);
   (36785, [116; 89; 218; 52; 143; 246; 153; 79; 120; 91; 84; 56; 160]);
   (36793, [199; 76; 106; 71; 25; 89; 102; 42; 27; 94; 126; 12; 68; 153; 158; 91; 116; 4; 143; 180; 148; 52; 155; 93; 84; 92; 17; 79; 34; 160; 81; 145; 28; 159; 140; 96; 128; 120; 32]);
   (36797, [30; 209; 0; 94; 155; 91; 43; 17; 32; 89; 31; 29; 42; 158; 143; 25; 93; 81]);
   (36798, [244; 52; 116; 64; 91; 89; 148; 96; 158; 94; 29; 27; 155; 160; 93; 30; 25; 153; 79; 92; 157; 143; 95; 32; 84; 15; 159; 120; 156; 0; 20; 31; 1]);
   (36801, [244; 52; 116; 120; 91; 25; 153; 56; 155; 79; 94; 30; 92; 158; 148; 143]);
   (36802, [52; 0; 192; 15; 56; 25; 155; 91]);
   (36804, [7; 20; 244; 246; 91]);
   (36805, [1; 91; 0; 194; 155; 7; 15; 62; 25; 32; 159; 158; 160]);
   (36807, [239; 98; 116; 25; 52; 70; 43; 7; 71; 1; 148; 0; 121; 56; 64; 20; 84; 153; 143; 89; 27; 135; 32; 15; 94; 180; 155; 30; 134; 79; 76; 35; 128; 91; 4; 160; 93; 170]);
   (36808, [52; 244; 29; 64; 155; 91; 126; 157; 30; 94; 158; 32; 92; 89; 96; 148]);
   (36814, [52; 244; 116; 7; 155; 56; 15; 27; 91; 20; 25; 84; 79; 148; 120; 153; 30; 143; 17]);
   (36816, [25; 56; 52; 89; 116; 244; 160; 153; 148; 120; 145; 64; 81; 158; 20; 91; 155; 143; 30; 180; 32; 96; 15; 159; 17; 84; 95; 79; 31]);
   (36817, [192; 43; 116; 76; 107; 20; 25; 71; 52; 42; 7; 0; 64; 89; 12; 4; 143; 17; 15; 155; 148; 153; 29; 32; 159; 156; 56; 92; 132; 120; 91; 84; 30]);
   (36819, [205]);
   (36820, [52; 244; 116; 84; 25; 79; 148; 15; 89; 143; 91; 56; 4; 153]);
   (36821, [205]);
   (36824, [199; 52; 6; 116; 143; 25; 148; 56; 32; 20; 155; 91; 79; 153; 27; 30; 84]);
   (36825, [38; 230; 24; 41; 20; 7; 6; 148; 25; 32; 15; 43]);
   (36827, [52; 116; 244; 56; 7; 25; 64; 6; 153; 91; 155; 148; 92; 84; 79; 120; 159; 96; 81; 180; 15; 89; 143; 94; 160; 158; 17; 145; 31; 32; 27; 68; 156; 30; 93; 20]);
   (36828, [192; 71; 64; 52; 7; 25; 42; 91; 4; 153; 30; 62; 190; 155; 170; 143; 94; 43; 96; 116; 92; 93; 68; 126; 15; 84; 79; 158; 27; 20; 89; 159; 148; 0; 31; 132; 32; 67; 160; 76; 81; 29; 120; 56; 17]);
   (36829, [56; 52; 246; 116; 25; 20; 79; 15; 4; 91; 17; 81; 143; 155]);
   (36830, [237; 0; 7; 52; 25; 116; 71; 27; 94; 158; 56; 34; 20; 155; 153; 89; 91; 30; 143; 4; 62; 28; 148; 120; 159; 15; 79; 29; 160; 32; 81; 157; 145; 84; 190; 95; 96; 93]);
   (36831, [192; 0; 7; 116; 71; 52; 91; 84; 155; 190; 62; 27; 148; 79; 25; 15; 43; 120; 153; 143; 28]);
   (36834, [79; 143; 126; 62; 148; 84]);
   (36836, [251; 62; 126; 155]);
   (36837, [0; 15; 193; 91; 194; 7; 20; 155]);
   (36838, [205; 30; 91; 155; 153; 94; 158; 25; 29; 96; 93]);
   (36840, [205; 91]);
   (36841, [205; 79; 84; 89; 91; 143]);
   (36842, [27; 30; 91; 155; 96; 219; 160; 158; 32; 157; 29; 94; 93; 120; 153; 159; 31; 25; 143; 116; 92]);
   (36843, [52; 71; 116; 246; 64; 0; 15; 25; 120; 153; 79; 56; 4; 65]);
   (36845, [199; 71; 52; 120; 116; 91; 20; 56; 79; 158; 148; 155; 25; 29; 84; 160; 89]);
   (36846, [219]);
   (36848, [68; 116; 120; 246; 89; 70; 52; 91; 153; 155; 84; 25; 15; 156; 4]);
   (36855, [116; 52; 244; 0; 25; 89; 148; 4; 143; 190; 62; 20; 91; 64; 96; 79; 15; 120; 56; 157; 32; 155; 126; 29; 3]);
   (36856, [244; 52]);
   (36857, [89; 25; 218; 116; 79; 143; 155; 91; 148; 84; 153; 93]);
   (36861, [52; 244; 25; 116; 148; 143; 15; 56; 79; 20; 91; 155; 153; 32; 84]);
   (36864, [52; 244; 116; 25; 56; 143; 184; 20; 84; 79; 153; 15; 120; 17; 155; 81; 148; 180; 32; 91]);
   (36865, [244; 52; 116; 153; 25; 143; 120; 91; 56; 148; 20; 89; 15; 32; 155; 96; 160]);
   (36866, [52; 0; 64; 246; 1; 25; 153; 7; 91; 15; 194; 4; 143; 67; 20; 155; 116; 92; 56; 84; 156]);
   (36867, [52; 244; 116; 79; 25; 143; 15; 145; 153; 120; 84; 160; 17; 56; 32]);
   (36868, [27; 219; 223]);
   (36869, [116; 251; 143]);
   (36870, [25; 246; 52; 53; 218; 116; 143; 89; 153; 7; 15; 4; 0; 56; 91; 148; 120; 81; 155; 17; 64; 20; 32]);
   (36873, [52; 116; 244; 25; 153; 89; 120; 148; 56; 91; 68; 81; 155; 32; 20; 96; 15; 79; 160; 92; 159]);
   (36874, [91; 246; 64; 96; 93; 0; 25; 155; 52; 132; 79; 94; 148; 32; 158; 157; 89; 30; 159]);
   (36875, [205; 155; 93; 91]);
   (36877, [0; 15; 25; 1; 30; 155]);
   (36879, [52; 244; 0; 116; 25; 153; 96; 64; 79; 62; 20; 81; 148; 4; 56; 120; 160; 32; 84; 155; 89; 143; 190; 29; 126]);
   (36880, [7; 116; 244; 153; 52; 143; 246; 148; 25; 15; 120; 20; 160]);
   (36881, [205; 79; 91]);
   (36882, [116; 52; 244; 120; 56; 153; 91; 95; 25; 84; 20; 30; 94]);
   (36884, [89; 25; 42; 71; 68; 218; 143; 52; 148; 153; 106; 91; 79; 81; 116; 170]);
   (36886, [91; 205; 155]);
   (36887, [52; 244; 116; 25; 0; 91; 155; 120; 153]);
   (36890, [34; 25; 89; 52; 244; 120; 7; 116; 17; 64; 56; 153; 96; 91; 20; 159; 27; 30; 0; 62; 94; 148; 86; 143; 97; 95; 79; 84; 15; 31; 155; 158; 32; 190; 126; 29; 81; 71; 214; 160; 93; 145; 4; 132; 92]);
   (36891, [244; 116; 52; 79]);
   (36893, [52; 116; 246; 79; 120; 25; 84; 20]);
   (36894, [246; 52; 116; 20; 143; 155; 91; 15; 79]);
   (36895, [71; 25; 89; 65; 116; 153; 218; 126; 96; 52; 64; 143; 160; 120; 68; 91; 155; 4; 56; 148; 15; 79; 158; 95; 32; 180; 159]);
   (36896, [116; 52; 153; 25; 244; 120; 89; 56; 68; 148; 20; 91; 143; 84; 159; 94; 155; 15; 79; 160; 132; 0]);
   (36897, [205; 52; 155]);
   (36898, [244; 116; 143; 79; 15; 155; 20; 91; 52; 120; 148]);
   (36902, [126; 251; 91]);
   (36909, [246]);
   (36910, [52; 244; 25]);
   (36911, [219; 27]);
   (36917, [91; 205]);
   (36918, [62]);
   (36920, [246; 91; 116; 143; 155; 64; 194; 25; 79; 126; 68; 52; 15; 96; 27; 81]);
   (36923, [25; 116; 153; 148; 160; 120; 20]);
   (36924, [244; 52; 116; 143; 0; 15; 62; 56; 148; 155; 20; 120]);
   (36926, [246; 52; 143; 148; 91; 43]);
   (36929, [246; 116; 52; 15; 91; 25]);
   (36930, [199; 91; 244; 52; 30; 155; 116; 25; 84; 64; 143; 153; 29; 89; 15; 79; 148; 156]);
   (36932, [205; 143]);
   (36935, [52; 89; 244; 116; 91; 79; 84; 155; 25; 148; 153; 143; 15; 158; 120; 27; 56]);
   (36941, [65; 86; 52; 227; 116; 64; 153; 143; 25; 15; 184; 148; 214; 76; 84; 180]);
   (36943, [52; 246; 79; 116; 155; 143; 15]);
   (36944, [52; 143; 148; 56; 194; 25; 15; 91; 155]);
   (36945, [194; 25]);
   (36946, [0; 84]);
   (36947, [227; 116; 89; 25; 71; 86; 153; 155; 91; 79; 32; 84; 17; 94; 64; 52; 27; 148; 143; 42; 158; 30; 96; 159; 214; 88; 152; 15; 43; 29; 156; 93; 128; 135; 106; 145; 20; 31; 160; 190; 92; 126; 180; 67; 81; 132; 170]);
   (36951, [25; 56; 52; 0; 246; 218; 116; 153; 89; 143; 79; 158; 15; 91; 155; 148; 159; 132; 20]);
   (36952, [205; 91]);
   (36955, [244; 52; 116]);
   (36962, [64; 126; 251]);
   (36963, [246; 116; 52; 68; 153; 143; 25; 120; 20; 15]);
   (36965, [0; 52; 25; 194; 218; 56; 64; 20; 15; 143; 148; 62; 126; 91; 94; 153; 84; 65; 158; 155; 135; 7]);
   (36968, [52; 246; 155]);
   (36973, [52; 244; 25; 86; 116; 89; 79; 214; 15]);
   (36974, [52; 244; 158; 15; 25; 180; 84; 20; 32; 143; 148; 56; 30; 155]);
   (36980, [52]);
   (36981, [52; 219; 30; 246; 155; 91; 32; 20; 158; 56]);
   (36989, [64; 7]);
   (36991, [52; 116; 244; 148; 25; 56; 143; 15; 30; 158; 91; 155; 180; 20; 153]);
   (36992, [52; 244; 116; 25; 91; 15; 120; 155]);
   (36994, [52; 15]);
   (36995, [64; 194; 91]);
   (37000, [91; 194; 0; 155]);
   (37003, [0; 62; 190]);
   (37009, [218; 91; 89; 94; 155; 158; 79; 92; 102; 93]);
   (37011, [27; 219; 30; 91; 25; 155; 28; 29]);
   (37013, [91; 209; 30; 155]);
   (37015, [30; 205; 91; 155]);
   (37017, [30; 205; 91]);
   (37019, [205; 30; 91]);
   (37021, [27; 219]);
   (37025, [205; 94; 158]);
   (37026, [27; 219; 30; 91; 155; 32]);
   (37027, [38; 230; 27; 24; 6; 94; 30; 43; 171; 158; 107; 91; 20; 89; 93; 155; 153; 32; 96; 157; 148; 25; 29; 160; 159; 143]);
   (37030, [89; 91; 218; 155; 95; 94; 158; 159; 153; 96; 25; 190; 126; 29; 157; 79; 171; 143; 30; 116; 32; 93; 160; 148; 92; 27]);
   (37034, [192; 25; 0; 116; 89; 64; 91; 143; 79; 20; 15; 3]);
   (37036, [219; 27]);
   (37038, [25; 244; 94; 17; 52; 153; 120; 159; 160; 56; 148; 89; 145; 158; 31; 116; 81; 91; 32]);
   (37039, [30; 15; 25; 31]);
   (37040, [219; 27; 155; 91]);
   (37041, [27; 219; 155; 91; 158; 94; 30]);
   (37043, [205; 30; 158]);
   (37044, [27; 219]);
   (37045, [27; 219; 30; 25; 91; 155; 28; 94; 158]);
   (37046, [205]);
   (37048, [219; 89; 91; 27; 25; 94]);
   (37049, [27; 219; 30; 28; 91; 155; 223]);
   (37050, [205; 91; 155]);
   (37051, [25; 244; 116; 52; 89; 91; 143; 32; 148; 155; 153; 84; 79; 120; 56; 30]);
   (37054, [205]);
   (37057, [64; 27; 0; 25; 126; 219; 52; 143; 15; 153; 91; 62; 155; 89; 116; 190; 28; 148; 160; 30; 32]);
   (37060, [219; 27]);
   (37061, [205; 91; 155]);
   (37063, [219; 27]);
   (37066, [106; 42; 89; 218; 94; 91; 25; 81; 52; 158; 153; 170; 148; 15; 132]);
   (37070, [89; 218; 91; 27; 25; 153; 155; 86; 81; 158; 143; 148; 93; 84; 94; 157; 99; 20; 31; 96; 180; 97]);
   (37071, [219; 30; 27]);
   (37072, [205]);
   (37073, [30; 27; 219; 28; 31; 94; 0; 91; 158; 15; 17; 155; 93; 209; 32]);
   (37075, [30; 205]);
   (37079, [27; 91; 219]);
   (37083, [205]);
   (37084, [219; 27; 91]);
   (37085, [27; 219; 91; 155; 28]);
   (37089, [217; 91; 25; 30; 155; 89; 94; 157]);
   (37090, [205; 91; 30; 155]);
   (37094, [27; 91; 219; 28; 155]);
   (37095, [30; 205; 25; 91]);
   (37096, [25; 76; 89; 86; 150; 227; 153; 95; 52; 148; 102; 214; 152; 81; 17; 159; 91; 4; 116; 155; 96; 94; 143; 68; 132; 93; 180; 106; 158; 32; 56; 145]);
   (37099, [30]);
   (37101, [27; 219; 89; 91; 158; 155; 30; 28; 143; 153; 94]);
   (37103, [205; 30; 155]);
   (37108, [30; 209; 91; 155]);
   (37112, [94; 158; 30; 143; 153; 159]);
   (37117, [199; 94; 25; 89; 71; 116; 158; 27; 30; 153; 155; 91; 96; 159; 52; 93; 160; 32; 56; 29; 120; 143; 4; 28; 157]);
   (37118, [29; 205; 30; 91]);
   (37122, [30; 27; 209; 91; 81; 17; 32; 155; 160; 145; 25; 31; 96; 158; 159]);
   (37124, [205; 30; 91]);
   (37145, [52; 194; 64; 38; 0; 148; 25; 56; 91; 143; 15])].
Definition pos_chars_23 : list (char * list N) :=
  [(37150, [205; 30]);
   (37154, [219; 27; 25; 91; 30]);
   (37155, [205; 30]);
   (37167, [30; 205]);
   (37169, [30; 158]);
   (37177, [205]);
   (37187, [205; 91]);
   (37190, [219; 27; 91]);
   (37193, [86; 30; 150; 94; 84; 91; 43]);
   (37194, [143; 218; 25; 116; 89]);
   (37195, [25; 94; 218; 158; 89; 159; 91]);
   (37196, [116; 246; 7; 79; 52; 91; 20]);
   (37197, [52; 120; 116; 244; 56; 25; 0; 153; 64; 32; 84; 81; 91; 89; 96; 155; 65; 143; 145; 15; 148; 158]);
   (37198, [205]);
   (37200, [89; 96; 205; 153]);
   (37202, [217; 25; 89; 116; 120; 153; 30; 43; 143; 91; 15; 159; 52; 95; 96; 32; 79; 155; 84; 20; 148; 180; 4; 158; 31; 160; 29]);
   (37207, [52]);
   (37210, [89; 217; 96; 25; 32; 153; 20; 160]);
   (37213, [52; 43]);
   (37214, [32; 205; 89]);
   (37217, [246]);
   (37218, [205; 116]);
   (37219, [194; 52; 0; 126; 15; 7; 143; 25; 91; 155]);
   (37220, [205]);
   (37221, [192; 25; 0; 89; 52; 190; 68; 153; 126; 91; 62; 79; 155]);
   (37225, [15; 52]);
   (37226, [89; 32; 25; 153]);
   (37228, [89; 218; 116; 52; 25; 246; 84; 153; 79; 160; 56; 148; 180]);
   (37230, [205; 89; 96; 153; 25; 160]);
   (37231, [218; 89; 96; 25; 153; 84; 160; 32]);
   (37232, [25; 153; 251; 160; 89; 148; 96]);
   (37233, [217; 89; 25; 244; 153; 143; 148; 79; 96; 4; 32]);
   (37234, [205]);
   (37236, [205]);
   (37237, [116; 25; 153; 120; 52; 159; 32]);
   (37238, [217; 89; 84; 153; 25; 96; 91]);
   (37239, [64; 52; 199; 25; 0; 153; 148; 91; 20; 43]);
   (37240, [89; 153; 217; 25; 160; 96; 64; 0; 62; 116; 32; 67; 184; 52; 190; 15; 192; 84; 148; 143; 3; 120; 4]);
   (37241, [246]);
   (37245, [192]);
   (37246, [246]);
   (37247, [56; 116; 52; 244; 25; 89; 171; 91]);
   (37253, [205]);
   (37255, [89; 194; 96; 0; 91; 160; 64; 25; 32; 153; 93; 15; 155; 62; 143]);
   (37257, [244; 91; 116; 155; 25; 52; 27; 153; 120; 143; 79; 15; 92; 62; 84; 30; 148; 96; 32]);
   (37259, [217; 25; 89; 79; 116; 96; 153; 32; 148; 52; 160]);
   (37260, [89; 205; 96]);
   (37261, [25; 15; 251]);
   (37264, [89; 143]);
   (37265, [205]);
   (37266, [116; 244; 64; 52; 0; 84; 91; 79; 120; 155; 25; 148; 153; 20]);
   (37274, [89; 217; 96; 91]);
   (37275, [89; 217; 96; 153; 25; 148; 160]);
   (37282, [205]);
   (37290, [25; 126]);
   (37293, [205]);
   (37294, [205; 116; 155]);
   (37295, [205]);
   (37300, [30; 25]);
   (37301, [205]);
   (37306, [205; 126; 190; 116]);
   (37319, [52; 56; 244; 116; 25; 89; 27; 143; 79; 155; 153; 91; 32; 93; 30; 81; 64; 29; 160; 120; 84; 148; 17]);
   (37321, [217; 25; 89; 91; 153; 32]);
   (37322, [116; 52; 218; 89; 27; 25; 153; 143; 246; 91; 56; 120; 148; 62; 155; 32; 145; 79]);
   (37324, [204; 102; 106; 86; 99; 89; 12; 158; 94; 155; 93; 25; 157; 107; 153; 91; 30; 29; 71; 27; 143; 76; 79; 190; 148; 84; 214; 160; 15; 159; 32; 96; 92; 161; 35; 4; 20; 150; 22; 31; 7; 163]);
   (37325, [0; 25; 64; 52; 192; 116; 7; 56; 89; 30; 153; 86; 68; 4; 143; 155; 148; 62; 79; 43; 190; 84; 126; 15; 81; 20; 91; 32; 160; 71; 17; 31; 159; 145; 120; 65; 214; 29; 132; 35; 99; 156; 92; 158]);
   (37326, [25; 89; 4; 196; 0; 192; 116; 42; 91; 94; 153; 120; 79; 32; 159; 155; 64; 143; 15; 93; 56; 29; 96; 84; 148; 158; 81; 52; 27; 160; 20; 3; 30; 92]);
   (37327, [89; 217; 86; 116; 120; 71; 25; 153; 52; 84; 64; 68; 91; 20; 150; 132; 65; 148; 180; 81; 15; 79; 96; 143; 160; 159; 155; 158; 56; 82; 117]);
   (37329, [89; 25; 196; 27; 153; 218; 155; 32; 30; 91; 159; 116; 28; 160; 96; 158; 15; 84; 94; 29; 148; 143; 62; 81; 20; 43; 93; 107; 4; 132; 171; 68; 79; 157; 86; 17; 31; 0; 95; 92; 184; 120; 99; 156]);
   (37340, [143; 30; 15; 89]);
   (37492, [34; 56; 116; 52; 89; 219; 91; 25; 79; 218; 143; 155; 29; 30; 153; 180; 246; 120; 32; 15; 96; 159; 148]);
   (37518, [205; 91; 155]);
   (37550, [205; 153; 25; 158; 91; 155; 116; 68]);
   (37576, [205; 91]);
   (37694, [244; 91; 25]);
   (37738, [251; 89]);
   (37775, [205; 4; 91; 155]);
   (37834, [25]);
   (37846, [52]);
   (37950, [205; 155; 91]);
   (37995, [91; 219; 155; 160; 32; 95; 96]);
   (38022, [205]);
   (38023, [205; 160; 91]);
   (38024, [34; 89; 25; 217; 52; 143; 15; 4; 116; 81; 153; 91; 79; 20; 68; 93; 96; 180; 155; 71; 32; 148; 84; 56]);
   (38025, [244; 25; 89; 143; 20; 91; 79; 84; 148; 96; 153; 180; 155; 52]);
   (38026, [91; 205; 155]);
   (38027, [218]);
   (38029, [218; 91]);
   (38030, [89; 218; 25; 91]);
   (38031, [155; 219; 91]);
   (38032, [205]);
   (38034, [217; 89; 160; 91; 25]);
   (38035, [52; 244; 30; 25; 116; 143; 148; 91; 20; 158; 89; 15]);
   (38036, [205]);
   (38037, [205; 25; 91; 155]);
   (38039, [91; 93; 155; 218; 153; 89; 79; 25; 143]);
   (38041, [217; 89; 25; 153; 52; 96; 32; 56; 91]);
   (38042, [217]);
   (38043, [217; 32; 89; 25; 153; 96; 155; 91]);
   (38044, [205; 155; 91]);
   (38045, [192; 64; 52; 79; 25; 0]);
   (38046, [218; 25; 89; 91; 153; 155; 120; 159]);
   (38047, [86; 217; 25; 89; 27; 99; 155; 91; 52; 30; 88; 84; 143; 79; 158; 153; 116; 15; 96; 156; 148; 28]);
   (38048, [217; 89; 96; 32; 25; 91; 160; 155]);
   (38049, [217; 25; 89; 91; 96; 155; 153]);
   (38050, [25; 89; 217; 153; 159; 91; 160; 116; 81; 155; 96; 32; 4; 95; 79; 148; 120; 20; 29; 92; 52; 158; 244; 17; 31]);
   (38051, [205; 25]);
   (38052, [246; 91; 25; 155]);
   (38053, [25; 218; 89; 91; 153; 79; 155]);
   (38054, [91; 219; 155; 209; 52; 25; 15; 30; 218; 246; 94; 29; 148; 158; 93]);
   (38055, [91; 227; 155; 25; 143; 79; 15; 148]);
   (38056, [217; 25; 153; 89; 96; 32; 160]);
   (38057, [217; 116; 89; 25; 244; 96; 52; 91; 153; 15; 79; 84; 148]);
   (38058, [205; 155]);
   (38059, [205; 91; 155]);
   (38060, [218]);
   (38061, [219; 27; 155; 91]);
   (38062, [89; 27; 219; 25; 91; 155; 132]);
   (38063, [205; 89; 91; 155; 96]);
   (38064, [91; 205; 155]);
   (38065, [217; 27; 116; 89; 25; 64; 30; 153; 99; 143; 29; 91; 28; 155; 32; 84; 96; 158; 148; 120; 93; 160; 180; 79]);
   (38066, [205; 91]);
   (38067, [244; 25; 52; 89; 91; 153; 15; 96]);
   (38068, [218; 89; 153; 25; 32; 96]);
   (38069, [218; 25; 89; 155; 91; 94; 143]);
   (38071, [205]);
   (38073, [217; 89; 91]);
   (38074, [218; 91; 89; 155; 79]);
   (38075, [244; 52; 25; 64; 89; 91; 17; 160; 143; 56; 155; 15; 84; 116; 153; 96; 32]);
   (38076, [218; 25; 96; 153; 91; 32; 155]);
   (38077, [218; 25; 160]);
   (38078, [217; 25; 89; 96; 32; 160; 91; 153]);
   (38079, [205; 91; 89; 155]);
   (38080, [217; 25; 89; 153; 155; 91]);
   (38081, [25; 89; 217; 160; 153; 27; 155; 159; 91; 116; 79; 30; 81; 62; 31; 15; 143; 148; 96; 158; 52; 32; 93; 244; 7; 4; 20; 84; 29; 120; 180; 94; 145; 156; 17; 28]);
   (38082, [217; 25; 91; 155]);
   (38083, [153; 89; 218; 25; 27; 91; 96; 155; 79; 148; 143; 32; 159; 132; 116; 84]);
   (38084, [64; 143]);
   (38085, [217; 25; 52; 30; 96; 153; 89; 155; 91; 68; 32; 148; 160; 180]);
   (38086, [25; 52; 218; 246]);
   (38088, [217; 153; 96]);
   (38089, [91; 205; 155]);
   (38090, [205]);
   (38091, [205; 91; 89]);
   (38092, [218]);
   (38093, [205; 89; 91]);
   (38094, [91; 219; 155; 89]);
   (38096, [89; 244]);
   (38097, [205]);
   (38098, [205]);
   (38101, [217]);
   (38102, [91; 205]);
   (38103, [205]);
   (38105, [219; 25]);
   (38107, [89; 225; 143; 91; 155]);
   (38108, [217; 25; 89; 153; 30; 91; 29; 160; 155; 15; 32; 96; 81; 171; 158; 159; 143]);
   (38109, [217; 25; 89; 96; 81; 155; 4; 160; 32; 153; 91; 159]);
   (38110, [251]);
   (38111, [217; 96; 89; 91]);
   (38112, [25]);
   (38113, [244; 25]);
   (38114, [153; 86; 89; 143; 227; 214; 91]);
   (38115, [246; 25; 91; 52; 96; 32; 155]);
   (38116, [15]);
   (38117, [205]);
   (38119, [251; 89; 25; 91; 155]);
   (38120, [91; 205; 52; 155]);
   (38121, [205; 15; 52]);
   (38122, [205]);
   (38123, [205; 91; 155]);
   (38124, [217; 89; 25; 153; 91; 32; 96; 218; 160]);
   (38125, [91; 25; 218; 155; 89; 52; 143; 246; 20; 15]);
   (38126, [0; 64; 148; 84; 190; 62; 91; 155; 92; 20; 52]);
   (38127, [205; 89]);
   (38128, [244; 25; 52; 32; 160; 91]);
   (38129, [217; 218; 25; 91; 32]);
   (38130, [244; 52; 25; 89; 32; 91]);
   (38131, [218; 89; 91]);
   (38133, [89; 25; 96]);
   (38134, [25; 159; 218; 27; 89; 91; 96; 30; 153; 155; 81; 145; 32; 143; 4; 132; 17; 68; 158; 160; 120; 0; 20; 29; 116; 31; 84; 148]);
   (38135, [205; 155]);
   (38136, [244; 52; 25; 116; 91; 89; 56; 148; 15; 155; 153; 32; 156]);
   (38137, [205]);
   (38138, [244; 89; 52; 25; 15; 30; 94; 56; 0; 116; 96; 148; 153; 158; 32; 143; 160]);
   (38140, [205; 91]);
   (38141, [205]);
   (38142, [89; 218; 25; 227; 20; 91; 68; 96; 148; 155; 160; 7; 32]);
   (38143, [0; 225; 91; 15; 161; 33; 155]);
   (38144, [56; 116; 25; 120; 153; 244; 89; 52; 145; 15; 0; 84; 79; 148; 159; 20; 81; 160; 91; 143; 146]);
   (38145, [244; 116; 120; 52; 89; 25; 153; 155; 148; 91; 143; 32; 0; 96; 92; 180; 29; 79; 132; 93; 30]);
   (38146, [217; 32; 96; 91; 89]);
   (38147, [62; 20]);
   (38148, [244; 25; 52; 91; 155; 20; 89; 116]);
   (38149, [217; 89; 25; 153; 116; 148; 143; 84; 20; 180; 79; 32; 92; 155; 91]);
   (38150, [25; 29; 89; 96; 153]);
   (38151, [205]);
   (38152, [153; 25; 116; 217; 68; 89; 244; 52; 20; 160; 120; 91; 155]);
   (38153, [217; 244; 25; 89]);
   (38155, [89; 153; 116; 91; 219; 0; 25; 143; 218; 148; 155; 120; 15; 159; 84; 158; 92; 180]);
   (38156, [217; 89; 91; 153; 25; 96; 32; 155]);
   (38157, [205]);
   (38158, [205]);
   (38159, [205; 89; 155]);
   (38160, [64; 192; 25; 52; 91; 0; 219; 155; 7; 79; 180; 89; 20; 153; 15; 96; 148]);
   (38161, [218; 153; 25; 96; 91]);
   (38162, [15; 25]);
   (38163, [205; 91]);
   (38164, [205; 25]);
   (38165, [205]);
   (38166, [251; 155; 91]);
   (38167, [217; 89; 91; 155; 96]);
   (38168, [205; 91]);
   (38169, [25; 64; 217; 244; 116; 52; 89; 79; 15; 91; 94; 143; 62; 0; 56; 153; 120; 148; 145; 180; 29; 30; 84; 68; 157; 158]);
   (38170, [217; 25; 116; 17; 89; 52; 4]);
   (38171, [244; 91; 155; 25]);
   (38173, [205]);
   (38174, [205; 155; 91]);
   (38175, [91; 205; 155]);
   (38177, [217; 155; 94; 30; 25; 91; 32; 158; 153; 160; 89; 29; 96; 17; 93; 159]);
   (38178, [205; 116; 89; 25; 120]);
   (38179, [217; 25; 143; 89; 148; 15; 116; 91; 158; 79; 96; 155]);
   (38180, [218; 89; 91; 153; 25; 86; 52; 143; 227; 148; 214; 160; 157; 96]);
   (38181, [244; 25; 153; 89; 148; 96; 143; 91; 79; 15]);
   (38182, [25; 218; 155; 30; 209; 91; 89; 15; 32; 143; 94; 158; 145; 153; 79; 29; 156; 84; 116; 194; 96; 52]);
   (38184, [217; 89; 218]);
   (38185, [244]);
   (38186, [244]);
   (38187, [205]);
   (38188, [205; 91]);
   (38189, [89; 227; 86; 25; 96; 214; 91; 155; 116]);
   (38190, [89; 217; 153; 25; 91; 155; 20; 219; 52; 4; 132; 160]);
   (38191, [25; 244; 116; 89; 153; 32; 217; 143]);
   (38192, [217; 25; 153; 89; 96; 91; 155]);
   (38193, [15; 205; 25; 155]);
   (38194, [15]);
   (38196, [91; 205; 155]);
   (38197, [64; 225; 143; 161; 97; 91; 155]);
   (38198, [218; 89; 96; 32; 91]);
   (38199, [205; 91; 155]);
   (38200, [217]);
   (38201, [217; 89; 155; 91]);
   (38202, [219; 91; 155]);
   (38203, [52; 25; 246; 89; 148; 160; 96; 91; 116; 155; 56]);
   (38206, [227; 91]);
   (38207, [205]);
   (38208, [25; 52; 244; 116; 153; 89; 120; 32]);
   (38209, [217; 89; 153; 25; 91; 32; 96; 155]);
   (38210, [52; 56; 116; 25; 15; 79; 143]);
   (38212, [205]);
   (38213, [205])].
Definition pos_chars_24 : list (char * list N) :=
  [(38214, [251]);
   (38215, [217; 89; 94; 52; 91; 25; 30; 180; 0; 155; 102; 116; 93; 56; 153; 81; 29; 32; 15; 158; 160; 17; 31; 132; 92; 4]);
   (38217, [217; 89; 218; 96]);
   (38218, [244; 25]);
   (38220, [246; 52; 155; 91]);
   (38221, [217; 25; 89; 91]);
   (38222, [205]);
   (38223, [25]);
   (38224, [217; 91; 218; 89; 25; 155]);
   (38225, [214; 86; 99; 227; 91]);
   (38226, [227; 91]);
   (38227, [205; 89; 96; 91; 155]);
   (38228, [25]);
   (38229, [155]);
   (38230, [89; 217; 91; 25]);
   (38231, [225; 25; 91]);
   (38232, [205; 155]);
   (38234, [153]);
   (38235, [91; 205]);
   (38236, [89; 218; 25; 96; 155; 91; 153; 30; 84; 116; 180; 17; 143; 15; 148; 158; 79; 29; 159]);
   (38237, [89; 205; 91]);
   (38238, [218; 89; 155]);
   (38241, [219]);
   (38242, [25]);
   (38243, [89; 25]);
   (38244, [205]);
   (38245, [205]);
   (38246, [205; 91; 96]);
   (38247, [25]);
   (38248, [205]);
   (38249, [89; 205]);
   (38251, [205; 89; 79; 91]);
   (38252, [205]);
   (38253, [217; 91; 4; 155]);
   (38255, [89; 25; 160]);
   (38256, [218; 25; 89; 91; 155; 116]);
   (38257, [205]);
   (38258, [217; 96]);
   (38259, [91; 205; 79; 155]);
   (38262, [244; 52; 25; 30; 91; 155; 116; 32; 158]);
   (38271, [89; 116; 192; 25; 30; 7; 153; 52; 64; 0; 155; 20; 145; 126; 190; 32; 62; 4; 29; 143; 91; 79; 15; 102; 17; 159; 31; 27; 158; 84; 68; 132; 160; 156; 148; 96; 81; 94; 92; 28; 180; 71; 56; 42]);
   (38376, [89; 217; 25; 42; 116; 94; 71; 153; 86; 158; 91; 148; 214; 27; 64; 143; 155; 159; 52; 79; 93; 160; 102; 15; 84; 96; 170; 32; 29; 184; 30; 166; 17; 106; 180; 81; 157; 68; 120; 135; 128; 95; 20]);
   (38377, [89; 217; 244; 91]);
   (38378, [52; 244; 25; 126; 62; 116; 190; 153; 148; 91; 84; 79; 143; 89; 15; 155; 4; 32; 30; 160]);
   (38379, [27; 219; 155]);
   (38381, [116; 244; 52; 153; 25; 53; 15; 68; 20; 120; 89; 0; 56; 148; 143; 4; 64; 145; 160; 180]);
   (38382, [25; 244; 52; 116; 89; 84; 120; 56; 91; 143; 148; 153; 96; 79; 15; 20; 27; 159; 155; 180]);
   (38383, [29; 244; 52; 155; 91; 25; 143; 20; 116; 92; 79]);
   (38384, [219; 25; 91; 196; 43; 155]);
   (38385, [205; 89; 91; 116; 155]);
   (38386, [244; 25; 52; 64; 116; 120; 148; 89; 126; 0; 143; 3; 79; 15; 4; 20; 153; 91; 43; 180; 155; 117; 128; 56; 65; 190]);
   (38387, [205; 91; 155]);
   (38388, [89; 76; 204; 107; 86; 25; 4; 153; 106; 71; 102; 116; 52; 84; 148; 79; 94; 214; 7; 160; 91; 20; 81; 155; 158; 143; 93; 32; 180; 159; 140; 96; 150; 120; 56]);
   (38389, [27; 219; 30; 91; 155]);
   (38390, [251]);
   (38391, [244; 64; 116; 25; 0; 3; 15; 143; 89; 20; 52; 190; 62; 180; 128; 7; 4; 65]);
   (38392, [217; 89; 25; 116; 153; 120; 30; 94; 244]);
   (38393, [244; 64; 52; 116; 25; 62; 190; 126; 148; 84; 180; 153; 20; 120; 91; 79; 56; 0; 30; 32]);
   (38394, [25; 143; 89; 153]);
   (38395, [89; 244; 52; 27; 153; 91; 79; 116; 143; 20; 155; 15; 159; 96; 64; 25; 84; 28; 148; 30; 145; 160; 92; 158; 32; 156; 94]);
   (38396, [205; 91]);
   (38397, [209; 30; 17; 25; 31; 32; 91; 155; 81; 29]);
   (38398, [219; 89; 27; 25; 158; 91; 155; 143]);
   (38400, [89; 217; 84; 25; 96]);
   (38401, [89; 91; 218; 25; 116; 153; 94; 155; 84; 96; 79; 158; 143]);
   (38402, [89; 246; 155]);
   (38403, [205]);
   (38404, [116; 218; 180]);
   (38405, [52; 116; 246; 56; 25; 120; 91; 155; 153; 89]);
   (38406, [251; 30; 25; 155; 91]);
   (38407, [25]);
   (38408, [25; 89]);
   (38409, [244; 25; 52]);
   (38410, [251; 155]);
   (38411, [205; 143; 91; 52; 148]);
   (38412, [205]);
   (38413, [218]);
   (38414, [27; 25; 219; 155; 153; 28; 89; 91]);
   (38415, [251; 25]);
   (38416, [52; 246; 91; 155; 56]);
   (38417, [218; 25; 52; 91; 116; 155; 143]);
   (38418, [205; 15]);
   (38420, [64; 25; 192; 116; 143; 0; 91; 79; 52; 153; 67; 155; 148; 7; 30]);
   (38421, [227; 86; 89; 214; 91]);
   (38422, [79; 25; 15; 20]);
   (38423, [94; 205; 91; 155]);
   (38425, [219; 227; 91; 27; 218; 155; 89; 79; 52]);
   (38426, [27; 219]);
   (38428, [30; 94; 158; 148; 89; 93; 31; 159]);
   (38431, [89; 25; 217; 95; 86; 116; 153; 102; 148; 79; 81; 96; 214; 91; 84; 155; 42; 71; 120]);
   (38433, [25; 158; 92]);
   (38434, [251]);
   (38442, [94; 91; 30; 158; 159]);
   (38446, [27; 219; 91; 155; 28]);
   (38449, [89; 205]);
   (38450, [52; 116; 56; 25; 89; 244; 153; 17; 159; 68; 120; 20; 79; 32; 71; 148; 30; 15; 91; 4; 31; 96; 143; 155; 81; 145; 84; 93]);
   (38451, [94; 89; 25; 91; 158; 153; 27; 155; 196; 218; 30; 160; 116; 219; 107; 52; 96; 93; 148; 171; 159; 143; 156; 29; 15; 68; 32; 31; 84; 0; 92; 79; 20; 209; 95; 120; 194; 81]);
   (38452, [25; 192; 27; 0; 89; 94; 52; 30; 15; 158; 3; 91; 155; 62; 42; 153; 20; 93; 116; 143; 84; 4; 148; 170; 190; 43; 180; 96]);
   (38453, [86; 25; 218; 89; 150; 116; 91; 35; 52; 99; 42; 148; 79; 143; 171; 155; 153; 84; 56; 29; 81; 160; 159; 96; 120; 166; 132; 214; 145]);
   (38454, [25; 153; 218; 89; 148; 171; 20; 91; 32; 4; 155; 132; 79; 180; 156]);
   (38459, [52; 25; 116; 244; 89; 153; 56; 79; 91; 120; 84; 143; 32; 160]);
   (38460, [205]);
   (38461, [205]);
   (38463, [27; 30; 25; 209; 29; 155; 32; 158; 91; 94; 31; 157; 79; 52; 93; 15; 159; 17; 143; 89; 96; 153; 4; 33]);
   (38464, [153; 25; 89; 94; 158; 29; 93; 96; 64; 91]);
   (38466, [251; 94; 89; 25; 158; 30]);
   (38468, [12; 244; 25; 52; 116; 4; 56; 143; 153; 7; 17; 120; 145; 160; 15; 159; 158; 155; 79; 93; 91]);
   (38469, [89; 135; 76; 153; 159; 218; 84; 180; 68; 160; 79; 95; 148; 96; 25; 184; 116; 158; 246; 155; 126; 143; 132; 91; 120; 145; 171]);
   (38470, [89; 25; 27; 7; 116; 153; 106; 214; 94; 159; 30; 42; 91; 219; 155; 218; 96; 17; 31; 20; 135; 143; 145; 84; 52; 81; 32; 160; 158; 24; 209; 148; 88; 0; 28]);
   (38471, [209; 30; 32; 25; 91; 155; 29; 158; 89; 143]);
   (38472, [27; 219; 52; 28; 25; 143; 91; 0; 155; 116; 89; 30; 84; 153; 15; 94; 29; 32; 160]);
   (38473, [94; 205; 158]);
   (38475, [64; 25; 194; 143]);
   (38476, [0; 25; 194; 89; 42; 91; 52; 155]);
   (38477, [116; 52; 244; 25; 120; 153; 89; 56; 79; 91; 155; 107; 148; 15; 84; 145; 32; 160; 143; 180]);
   (38480, [153; 52; 89; 244; 64; 116; 25; 148; 159; 56; 107; 91; 143; 155; 20; 32; 180; 4; 160; 84; 81]);
   (38484, [205]);
   (38485, [30; 209; 17; 219; 31; 89; 91; 25; 155; 32; 94; 159; 158]);
   (38491, [25]);
   (38495, [205; 158; 155; 91; 15; 94]);
   (38497, [192; 0; 25; 7; 52; 30; 94]);
   (38498, [89; 25; 95; 217; 81; 84; 116; 153; 96; 159; 94; 91; 102; 42; 145; 106; 158; 155; 79; 93; 30; 148; 132; 120; 32; 17]);
   (38500, [226; 116; 34; 52; 6; 25; 20; 43; 32; 153; 143; 148; 56; 79; 160; 15; 91; 89; 120]);
   (38503, [251]);
   (38504, [25; 246; 52; 155]);
   (38505, [89; 67; 153; 116; 192; 0; 64; 25; 81; 7; 84; 79; 143; 120; 155; 159; 160; 95; 20; 52; 148; 91; 68]);
   (38506, [244; 52; 25; 116; 91; 56; 81; 89; 155; 153; 84; 20]);
   (38508, [205]);
   (38514, [89; 106; 205]);
   (38516, [205]);
   (38517, [89; 94; 218; 91; 25; 158; 153; 155; 30; 93; 160; 81; 95; 96; 157; 159; 52; 116; 156; 170]);
   (38518, [25; 27; 219; 52; 155; 89; 158; 91; 116; 120; 93; 148; 30; 160; 28; 94; 32; 153; 143; 194; 96; 56; 20; 246; 223; 29]);
   (38519, [52; 116; 244; 89; 25; 143; 153; 79; 20; 120]);
   (38533, [218; 89; 76; 143; 93; 158; 79; 84; 91]);
   (38534, [91; 94; 43; 27; 219; 52; 0; 97; 107; 155; 158; 33; 30; 25; 161; 64; 116; 96; 153; 190; 93; 1; 89; 32; 56; 79; 68; 160; 159; 126; 84; 157; 194; 156]);
   (38536, [205]);
   (38539, [43; 219; 27; 91; 236; 29]);
   (38541, [94; 158; 205; 30]);
   (38543, [34; 7; 244; 116; 1; 52; 25; 20; 15; 0; 153; 143; 4; 148; 30; 62; 190; 91; 94; 155; 89; 56; 79; 84]);
   (38544, [52; 25; 244; 62; 91; 0; 4; 126; 190; 143; 116; 158; 20; 15; 155; 148; 79; 153; 56; 94]);
   (38548, [244; 116; 52; 89; 56; 25; 42; 4; 148; 20; 32; 7; 91; 153; 15; 79; 143; 84; 30; 31]);
   (38551, [91; 27; 219; 155]);
   (38552, [89; 25; 64; 218; 153; 155]);
   (38553, [89; 218; 143; 71; 25; 79; 84]);
   (38556, [116; 25; 89; 120; 153; 218; 132; 159; 52; 68; 143; 32; 160; 81; 145]);
   (38567, [25; 218; 153; 89; 159]);
   (38576, [205; 30; 91]);
   (38579, [205]);
   (38582, [89; 52; 153; 94; 209; 148; 25; 155; 91; 218; 159; 116]);
   (38585, [205; 91; 155]);
   (38588, [205; 89; 91; 155]);
   (38589, [251; 91; 0; 155; 143]);
   (38590, [192; 7; 67; 25; 52; 0; 89; 64; 116; 71; 143; 148; 20; 15; 153; 79; 84; 126; 120; 91; 68; 155; 32; 159; 158; 145; 81]);
   (38592, [89; 218; 143; 25; 153; 155; 158; 148; 32; 79; 30; 52; 91; 31; 132; 84; 94]);
   (38593, [155; 91; 217; 27; 30; 89; 25; 29; 158; 79; 32; 20; 96; 15; 143]);
   (38596, [89; 91; 25; 0; 196; 218; 4; 148; 94; 219; 155; 153; 62; 158; 15; 116; 52; 79; 20; 126; 143; 30; 160; 84; 64; 32; 93; 29; 156; 92]);
   (38597, [30; 64; 194; 91; 94; 155; 27; 25; 32; 158; 153; 29; 0; 93; 89; 79; 160; 126; 96; 157; 20; 52; 148; 67; 84; 159; 31]);
   (38598, [25; 52; 116; 227; 89; 159; 64; 153; 246; 56; 120; 91; 86; 94; 20; 32; 155; 160; 30; 79; 214; 4; 29; 81; 158; 148; 17; 96; 15; 132; 143; 171]);
   (38599, [52; 25; 244; 20; 116; 56; 153]);
   (38601, [218; 89; 25; 91; 155]);
   (38604, [196; 25; 20; 4; 148; 143; 32; 180; 153; 52; 160; 91]);
   (38605, [25; 91; 219; 27; 155; 209; 158; 30; 62; 15; 32; 20; 43; 153]);
   (38606, [91; 205; 89; 25]);
   (38607, [25; 218; 116; 89; 91; 155; 32; 79]);
   (38610, [219; 27; 94]);
   (38613, [25; 89; 244; 52; 91; 4; 143; 15; 79; 93; 20; 96; 153; 56]);
   (38624, [205]);
   (38632, [217; 89; 25; 91; 153; 116; 143; 79; 27; 155; 43; 84; 120; 92; 15; 148; 30; 20; 107; 96; 160; 68; 93]);
   (38633, [205; 94]);
   (38634, [89; 217; 25; 91; 27; 155; 116; 62; 32; 143; 153; 15; 120; 158; 84; 79; 30; 92; 52; 43; 148; 180; 29; 93; 42; 4; 96; 20; 156; 28]);
   (38639, [96; 91; 219; 155; 92]);
   (38643, [89; 79; 153; 91; 160]);
   (38646, [25; 56; 214; 150; 0; 22; 190; 24; 7; 116; 126; 42; 79; 143; 62; 86; 97; 52; 148; 91; 120; 15; 180; 43; 3; 155; 89; 161; 20; 31; 153]);
   (38647, [25; 27; 89; 91; 217; 155; 116; 153; 52; 30; 158; 157; 93; 143; 29; 15; 94; 79; 148; 120; 160; 20; 84; 159; 32; 96]);
   (38649, [89; 218; 25]);
   (38654, [89; 217; 25; 30; 116; 79; 62; 91; 158; 148; 155; 52; 153; 15; 84; 143; 20; 96; 160; 29]);
   (38656, [52; 25; 244; 89; 116; 153; 84; 56; 79; 148; 180; 91; 120; 155]);
   (38657, [246; 91; 155; 15; 25; 143]);
   (38660, [91; 89; 219; 143; 155; 25; 79; 158; 116; 15; 96]);
   (38662, [89; 91; 79; 205; 155; 143]);
   (38663, [52; 89; 56; 244; 91; 25; 155; 153; 15; 43; 116; 120; 32; 148; 84; 143; 92; 156; 180; 159; 30; 145]);
   (38664, [91; 205]);
   (38665, [153; 64; 25; 217; 244; 89; 116; 52; 160; 84; 0; 180; 56]);
   (38669, [27; 91; 219; 209; 30; 116; 7; 155; 25; 29; 31; 143; 158; 93; 79; 157; 94; 28; 153; 32]);
   (38670, [7; 171; 107; 43]);
   (38671, [62; 126; 155; 91]);
   (38675, [25; 89]);
   (38678, [91; 219; 155; 89; 25]);
   (38684, [217; 171; 89; 25; 91; 79; 96; 155; 43; 143; 160; 32; 52; 153; 68]);
   (38686, [91; 89; 217; 155; 25; 158; 218; 92; 94; 30; 143; 160; 20; 148; 84; 79; 219; 32]);
   (38698, [25; 251]);
   (38701, [218; 89; 91; 126; 62; 155]);
   (38704, [25; 153]);
   (38706, [116; 52; 244; 25; 89; 143; 91; 155; 96; 0; 79; 107; 148; 94; 160; 32; 29; 158; 120; 93; 153; 84; 64; 180; 30]);
   (38712, [25; 217; 91; 116; 52; 153; 89; 155; 30; 96; 246; 160; 79; 143; 20; 120; 94; 148; 84; 158; 93; 0]);
   (38713, [25; 143; 155; 32]);
   (38718, [89; 205]);
   (38738, [25; 30; 192; 91; 52; 155; 27; 89; 17; 153; 4; 159; 31; 126; 43; 15; 32; 0; 62; 145; 148; 116; 92; 20; 143; 64; 158; 68; 79; 120; 29; 96; 94; 84; 93; 190; 160; 81; 156]);
   (38739, [0; 205; 25; 91; 155; 143]);
   (38742, [107; 91; 27; 30; 155; 219; 116; 94; 209; 96; 158; 32; 93; 153; 143; 92]);
   (38745, [64; 25; 244; 52; 89; 91; 62; 190; 27; 192; 116; 155; 0; 153; 20; 30; 79; 56; 126; 84; 143; 32; 96; 157; 184; 29; 158; 92; 160; 15; 148; 156]);
   (38747, [4; 89; 25]);
   (38750, [7; 206; 4; 199; 116; 30; 94; 71; 25; 70; 89; 79; 62; 143; 91; 148; 15; 20; 155; 6; 158; 17; 29; 52; 159; 56; 153; 84; 32; 31; 145; 93; 160; 81; 27; 156; 92]);
   (38752, [244; 116; 64; 52; 153; 34; 25; 0; 79; 15; 20; 91; 143; 180; 96]);
   (38753, [246; 64; 116; 143; 79; 91; 3; 25; 153; 0; 15]);
   (38754, [89; 25; 76; 217; 52; 70; 12; 65; 71; 116; 153; 86; 68; 88; 42; 143; 15; 135; 84; 64; 148; 20; 79; 160; 0; 159; 91; 180; 214; 155; 96; 120; 158; 32; 157; 128; 150; 81; 190; 152; 126; 227; 30]);
   (38757, [205; 89; 91]);
   (38761, [120; 56; 160; 153; 89; 25; 246; 159; 148; 52; 84; 81; 116; 32; 91; 17; 158; 94; 180; 96; 155; 143; 29; 15; 30; 145; 93]);
   (38771, [27; 219; 155; 91]);
   (38772, [218; 25; 89; 96; 32; 143; 160]);
   (38774, [226; 25; 227; 89; 116; 218; 120; 153; 91; 32]);
   (38780, [89; 251; 158]);
   (38789, [91; 251]);
   (38795, [89; 217; 25; 116; 153; 91; 79; 96; 84; 32; 160; 17; 30]);
   (38797, [218; 25; 89; 30; 158; 15; 155; 153; 91; 156; 159; 32; 31]);
   (38801, [25; 30]);
   (38802, [205; 91]);
   (38804, [244]);
   (38808, [89; 25; 116; 158; 153; 84]);
   (38816, [52; 219; 246; 27; 15; 25; 89; 155; 91; 28]);
   (38819, [244; 25; 52; 153]);
   (38827, [205]);
   (38829, [25; 217; 52; 89; 244; 116; 91; 153; 15; 79; 143; 56; 218; 84; 96]);
   (38831, [251; 89]);
   (38834, [251]);
   (38836, [251]);
   (38886, [27; 219; 91; 155; 94; 29; 89; 157; 93; 158; 30; 159; 32; 15; 28]);
   (38887, [25; 64; 194; 91; 20; 153; 143; 96; 160; 155; 65]);
   (38889, [27; 209; 30; 91; 28; 31; 32; 155; 25; 94; 29; 150; 158; 89; 159; 22; 219]);
   (38890, [79; 251; 155; 91]);
   (38891, [91; 205; 155]);
   (38892, [25; 15; 156; 52; 92; 27; 155; 143; 32]);
   (38893, [25; 32; 155]);
   (38899, [89; 25; 217; 153; 116; 91; 159; 31; 96; 148; 158; 155; 120; 79; 68; 143; 20; 15; 17; 32; 94; 84; 160]);
   (38901, [217; 89; 25; 91; 153; 64; 155; 160; 148; 143]);
   (38902, [30; 148; 91; 27; 155; 219; 209; 32; 31; 25]);
   (39029, [214; 86; 89; 25; 227; 153; 157; 148; 91; 68; 155]);
   (39030, [244; 89; 25; 12; 52; 86; 158; 7; 116; 153; 91; 15; 94; 143; 126; 0; 68; 155; 120; 79; 4; 214; 20; 106; 32; 148; 84; 62; 30; 159; 71; 64]);
   (39031, [86; 99; 43; 7; 71; 227; 15; 214; 155; 84; 29; 91]);
   (39032, [64]);
   (39033, [25; 86; 102; 89; 227; 214; 68; 27; 116; 96; 153; 30; 71; 148; 160; 15; 155; 94; 91; 28]);
   (39034, [91; 1; 25; 7; 244; 155; 192; 52; 34; 96; 43; 116; 0; 94; 64; 79; 30; 29; 15; 92; 158; 32; 93; 143; 107; 20; 62; 190; 17; 148; 4; 56; 159; 95; 120; 160; 156; 89; 153]);
   (39035, [71; 199; 89; 25; 27; 43; 116; 52; 155; 143; 153; 158; 20; 91; 30; 148; 93; 160; 79; 29]);
   (39036, [89; 91; 205; 155]);
   (39037, [0; 194; 25; 52; 64; 143; 155; 32; 20; 91; 153; 15]);
   (39038, [116; 27; 25; 244; 52; 143; 71; 79; 15; 89; 148; 159; 4; 20; 84; 155; 135; 91; 28; 0; 153; 120; 145; 30]);
   (39039, [7; 86; 116; 227; 94; 91; 93; 52; 99; 159; 143; 30; 64; 158; 84; 153; 155; 160; 25; 96; 244; 79; 15; 148; 214; 120; 29; 56; 171]);
   (39040, [62]);
   (39041, [52; 246; 56; 91; 155; 25; 120]);
   (39042, [116; 244; 52; 25; 246; 91; 143; 155; 92; 89; 84; 15])].
Definition pos_chars_25 : list (char * list N) :=
  [(39043, [116; 251]);
   (39044, [52; 56; 25; 199; 116; 7; 120; 148; 91; 4; 155; 153; 132; 32; 143; 17; 20; 159; 43; 145]);
   (39045, [89; 218; 25; 42; 79; 116; 153]);
   (39046, [25; 116; 89; 244; 52; 56; 91; 153; 148; 20; 155; 143; 79; 68; 84; 4; 159; 96; 158]);
   (39047, [199; 52; 7; 96; 20; 67; 160; 158; 93; 126; 91; 143; 84]);
   (39048, [218; 89; 25; 153; 42; 116; 160]);
   (39049, [219; 155; 91; 96; 52]);
   (39050, [89; 218; 25]);
   (39052, [89; 153; 25]);
   (39053, [205; 30; 32; 155; 93; 91; 158]);
   (39055, [218; 89; 153]);
   (39056, [30; 15; 92; 52; 84; 32; 20; 116]);
   (39057, [25; 0; 89; 71; 7; 218; 68; 52; 194; 116; 120; 153; 91; 155; 96; 143; 148; 160; 81; 32]);
   (39059, [0; 25; 246; 62; 116; 91; 148; 143; 20]);
   (39060, [52; 246]);
   (39062, [219; 64; 91; 143; 155; 25; 0; 153; 92]);
   (39063, [86; 227; 25; 214; 32; 155; 153; 52]);
   (39064, [89; 25; 217; 52; 116; 153; 84; 143; 91; 148; 244; 64; 79; 160; 30]);
   (39066, [89; 25]);
   (39067, [25; 205; 30; 155]);
   (39068, [25; 27; 91; 143; 89; 155; 219; 218; 93; 158; 148; 209; 116; 79; 94; 15; 84; 20; 96]);
   (39069, [89; 25; 217; 68; 116; 4; 153; 30; 7; 27; 28; 96; 79; 155; 91; 29; 117; 71; 15; 148]);
   (39070, [25]);
   (39071, [0]);
   (39072, [52; 244; 94; 15; 56; 143; 25; 190; 126; 0; 192; 79; 84; 62; 106; 116; 91; 20; 180]);
   (39073, [205]);
   (39074, [91; 205; 155]);
   (39076, [52; 244; 116; 62; 89; 25; 190; 120; 79; 143; 56; 153; 84]);
   (39077, [89]);
   (39078, [205; 148; 79; 116]);
   (39079, [25]);
   (39118, [25; 89; 217; 116; 143; 91; 153; 15; 148; 52; 0; 84; 155; 79; 20; 120; 94; 158; 160; 96; 180; 64; 93; 4; 102; 56; 32; 92; 30; 159; 31; 145; 170; 81; 17; 29; 156; 132]);
   (39121, [205]);
   (39122, [62; 126; 143; 20; 7; 155; 91; 64]);
   (39123, [25]);
   (39125, [225; 126; 190; 97; 33]);
   (39128, [52; 244; 190; 116; 7; 143; 126; 0; 62; 25; 56; 155; 15; 64; 91; 20; 148; 120; 27; 180]);
   (39129, [52; 89; 148; 92; 25]);
   (39130, [116; 92]);
   (39134, [25; 244; 52; 91; 116; 56; 155; 32; 143; 153; 62; 7; 15; 79; 27; 81; 148; 89; 30; 159; 96; 84; 92; 20; 120; 31; 158; 4; 29; 0; 68; 93]);
   (39135, [25; 89; 244; 116; 52; 148; 153; 79; 20; 4; 143; 155; 15; 159; 84; 68; 160; 120; 32; 158; 96; 81; 56]);
   (39143, [205]);
   (39144, [246; 74; 25; 52]);
   (39181, [205]);
   (39184, [25; 89; 218; 116; 86; 153; 120; 84; 143; 79; 102; 214; 81; 15]);
   (39214, [251; 89; 143; 91; 155]);
   (39252, [205; 91]);
   (39253, [25; 15]);
   (39268, [89]);
   (39269, [25; 218; 116; 15; 143; 20; 64; 180; 52; 194; 79; 148; 84]);
   (39270, [89]);
   (39271, [244; 25]);
   (39272, [251; 89]);
   (39273, [205]);
   (39274, [116; 89; 205; 159]);
   (39275, [205]);
   (39276, [205; 116]);
   (39277, [217; 116; 89; 25; 43; 84; 153; 158; 79; 143; 148; 91; 68; 15; 120; 32; 20; 180; 93]);
   (39278, [25; 244; 52; 89; 116; 153; 20; 148; 15; 143; 91; 56; 79; 17; 96; 155; 30]);
   (39279, [52; 89]);
   (39280, [116; 89; 244; 153; 25; 52; 91; 143; 68; 120; 148; 159; 32; 96; 160]);
   (39281, [52; 192; 244; 0; 160; 56; 15; 89; 25; 143; 148; 20; 79; 116; 84; 91; 132; 153; 184]);
   (39282, [25; 52; 246; 116; 153; 32; 4]);
   (39283, [89]);
   (39284, [25; 79; 89; 143]);
   (39285, [25; 89; 218; 91; 153]);
   (39286, [244; 52; 27; 64; 116; 94; 20; 91; 79; 158; 148; 155; 30; 153; 219; 15]);
   (39287, [89; 25; 116]);
   (39290, [25; 218; 89]);
   (39292, [89; 217; 25; 116; 153; 91; 143; 160; 32; 96]);
   (39293, [25; 89]);
   (39294, [25]);
   (39295, [244; 52; 89; 25; 116; 79; 15; 153; 148; 20]);
   (39296, [205; 91; 155]);
   (39297, [64; 246; 116; 79]);
   (39300, [25]);
   (39301, [218; 25; 89; 116; 96; 68; 180]);
   (39302, [89; 218; 25; 94; 95; 153; 30; 102; 91; 120; 116; 96; 180; 159; 79; 52; 148; 81]);
   (39303, [251]);
   (39304, [116; 52; 89; 56; 25; 153]);
   (39305, [25]);
   (39306, [192; 25]);
   (39307, [192; 116; 64; 25; 15]);
   (39309, [89; 25; 116; 96]);
   (39310, [25]);
   (39311, [116; 25; 153; 89; 244]);
   (39312, [205; 89]);
   (39313, [251; 89]);
   (39314, [25; 30; 155]);
   (39315, [218; 25; 89]);
   (39316, [205; 89; 143]);
   (39317, [205; 91]);
   (39318, [25; 22; 7; 214; 43; 116; 52; 89; 4; 86; 15; 79; 143; 56; 76; 150; 155; 32; 30; 94; 153; 31; 158; 148; 107; 17; 91; 20; 84; 159; 71; 81; 160; 156]);
   (39319, [89; 205; 91; 155]);
   (39320, [205]);
   (39321, [30; 25; 192; 89; 91; 155; 27; 116; 31; 153; 158; 0; 32; 62; 160; 64; 143; 29; 79; 96; 68; 93; 190; 148; 20; 4; 126; 159; 15; 94; 84; 28; 92]);
   (39333, [91; 62; 194; 155; 93; 156]);
   (39336, [91; 64; 218; 89; 25; 155; 153; 67; 84]);
   (39532, [217; 27; 89; 25; 94; 30; 116; 158; 155; 7; 153; 91; 96; 143; 29; 157; 71; 79; 35; 93; 160; 32; 28; 15; 84; 0; 148; 17; 159; 150; 20; 132; 180; 156; 22; 31; 120; 43; 95; 135; 4; 107]);
   (39533, [116; 143; 153; 25]);
   (39534, [244; 52; 25; 160]);
   (39535, [25; 52; 244; 91; 79; 0; 64; 56]);
   (39536, [246; 116; 52; 15; 91; 143; 79; 64; 96; 155; 159; 120; 32; 20; 160]);
   (39537, [52; 246; 25; 56; 89; 116; 153; 143; 91; 79; 148; 160; 155]);
   (39539, [116; 244; 52; 25; 126; 84; 120; 153; 56; 91; 0; 89; 190; 143; 64]);
   (39540, [217; 89; 25; 91; 153; 143; 155; 79; 52; 84; 15; 30; 20; 116]);
   (39541, [205]);
   (39542, [116; 153; 52; 246; 160; 244; 91]);
   (39543, [15; 25; 143]);
   (39544, [25]);
   (39545, [89; 218; 91; 155; 25; 158; 143; 153]);
   (39546, [205]);
   (39547, [244; 25; 52; 116; 56; 30; 159; 91; 15; 31]);
   (39548, [89; 244; 25; 153; 160; 92]);
   (39549, [0; 25]);
   (39550, [52; 244; 25; 116; 86; 89; 91; 32; 17; 143; 155; 15; 227; 214; 20; 120]);
   (39551, [25; 94; 52; 92; 30; 158]);
   (39552, [251]);
   (39553, [0; 25; 15; 155]);
   (39554, [244; 116; 52; 79; 25; 143; 190; 62; 120; 20; 153; 84; 89]);
   (39556, [0; 194; 25; 15; 91; 89; 143; 20; 79; 155]);
   (39557, [94; 158; 219; 91; 25]);
   (39558, [25; 27; 219; 30; 32; 91; 153; 155]);
   (39559, [64; 15; 143; 62; 0; 25; 89; 158]);
   (39560, [25]);
   (39562, [205; 30; 91; 155; 143]);
   (39563, [116; 246; 79; 155; 91; 148]);
   (39564, [120; 89; 116; 153; 52; 244; 56; 64; 25; 159; 91; 143; 84; 160; 68; 20; 155; 32]);
   (39567, [91; 218; 25; 155; 160; 194; 29]);
   (39568, [205; 25; 91; 155]);
   (39569, [244; 25; 52; 89; 91; 153; 155; 30; 116; 15; 4; 159; 143; 120; 79; 180]);
   (39570, [25]);
   (39571, [205]);
   (39574, [244]);
   (39575, [244; 116; 25; 52; 120; 153; 79; 84]);
   (39576, [89; 205; 91]);
   (39578, [52; 89; 192; 116; 79; 25; 56; 94; 155; 91; 15; 148; 84; 96]);
   (39579, [205; 143; 84; 89; 79]);
   (39580, [91; 143; 64; 155; 205]);
   (39581, [205; 91; 89]);
   (39582, [91; 205; 155; 92]);
   (39583, [244]);
   (39584, [25; 251; 153; 91]);
   (39585, [25; 218; 89]);
   (39586, [91; 205; 155]);
   (39587, [205]);
   (39588, [89; 7; 199; 52; 84; 65; 25; 143; 56; 91; 148; 15]);
   (39589, [91; 155; 219; 79; 218; 143; 89]);
   (39591, [91; 246; 81; 155; 143; 92]);
   (39592, [25; 218; 89; 153; 52; 79; 143; 116; 91; 126; 155; 148; 64; 32; 15; 84; 135; 20; 160; 62; 158; 180; 159; 33]);
   (39600, [25]);
   (39601, [205]);
   (39606, [153; 25]);
   (39607, [25]);
   (39608, [89; 25; 79; 153]);
   (39610, [251]);
   (39612, [89; 153; 251]);
   (39616, [205; 15]);
   (39617, [205]);
   (39618, [25]);
   (39621, [89; 251]);
   (39627, [25]);
   (39628, [25]);
   (39633, [25]);
   (39635, [89; 205; 153; 25; 79; 116]);
   (39640, [192; 25; 116; 0; 64; 7; 52; 27; 4; 155; 89; 153; 158; 30; 17; 91; 20; 143; 42; 148; 32; 156; 15; 160; 159; 62; 93; 190; 29; 68; 28; 132; 71; 31; 79; 81; 84; 96; 145; 126; 56; 157; 180; 92; 94; 3; 120]);
   (39649, [205; 91]);
   (39654, [205; 64; 91; 116; 155]);
   (39659, [205; 89]);
   (39661, [205; 25]);
   (39663, [218; 89; 155; 25; 91]);
   (39673, [205]);
   (39675, [205; 89; 158]);
   (39683, [218; 89; 25; 158]);
   (39688, [205]);
   (39695, [205]);
   (39699, [218; 25; 89; 143; 91; 148; 79]);
   (39711, [89; 205; 91; 155; 143]);
   (39715, [25; 218]);
   (39727, [205; 155]);
   (39730, [218; 91]);
   (39739, [246; 143; 96]);
   (39740, [217; 25; 89; 116; 143; 15; 192; 91; 148; 79; 153; 52; 27; 84; 0; 20; 180; 43]);
   (39745, [89; 0; 30; 25; 143; 116; 92; 155; 156]);
   (39746, [89; 217; 143; 25; 116; 15; 153; 64; 68; 20; 91; 79; 155; 84; 160]);
   (39747, [89; 251]);
   (39748, [89; 79; 25; 218; 64; 143; 84; 15; 91; 155]);
   (39749, [25; 89; 143; 84; 20]);
   (39751, [89; 116]);
   (39752, [251; 89; 155]);
   (39753, [251; 89; 79]);
   (39757, [251; 25; 143]);
   (39759, [27; 219; 107; 91; 17; 155; 30; 29; 143; 25; 236; 28; 84; 43]);
   (39761, [205; 15; 25; 91]);
   (39764, [25; 218; 89; 143; 91; 155; 116; 4; 180; 84; 15; 20; 32]);
   (40060, [217; 25; 89; 116; 27; 91; 158; 15; 153; 96; 143; 79; 84; 155; 30; 148; 20; 52; 7; 94; 32; 160]);
   (40063, [25; 180; 32]);
   (40065, [27; 155; 158; 217; 91; 153; 94; 30; 96; 159; 145; 64; 28; 32; 29; 93; 17; 0; 157; 160; 209; 89; 92; 31; 25; 81; 15; 219; 116]);
   (40066, [205; 91; 89]);
   (40069, [25; 30]);
   (40070, [205; 91; 89]);
   (40071, [25; 29]);
   (40072, [205; 25; 91; 89]);
   (40075, [205; 91]);
   (40077, [27; 219; 25; 155; 29; 91; 15]);
   (40078, [205]);
   (40080, [205]);
   (40081, [25; 89]);
   (40082, [205]);
   (40084, [205]);
   (40085, [205]);
   (40090, [205]);
   (40091, [205; 153; 91; 89; 25]);
   (40092, [94; 25; 0; 64; 192; 160; 158; 62; 153; 27; 52; 89; 159; 79; 15; 143; 91; 120; 116; 155; 68; 4; 20; 32; 145; 84; 29; 30]);
   (40094, [205; 89]);
   (40095, [89; 205; 25]);
   (40096, [89; 143; 0]);
   (40097, [89; 251]);
   (40098, [25; 89]);
   (40099, [25]);
   (40100, [218; 25; 32; 91; 89; 15; 155; 158; 30]);
   (40101, [25]);
   (40102, [251]);
   (40103, [205]);
   (40104, [25; 89; 96; 32; 153]);
   (40105, [205]);
   (40107, [25; 79]);
   (40109, [205]);
   (40110, [25; 153]);
   (40112, [205]);
   (40113, [25]);
   (40114, [25]);
   (40115, [25; 89]);
   (40116, [205]);
   (40117, [89; 205]);
   (40118, [25]);
   (40119, [205; 25; 89]);
   (40120, [218; 91; 89; 25; 155; 52; 153; 143]);
   (40122, [205]);
   (40123, [205]);
   (40124, [205]);
   (40125, [205]);
   (40131, [217; 52; 153]);
   (40132, [218; 89; 25]);
   (40133, [251; 89; 91]);
   (40134, [251]);
   (40135, [25; 218]);
   (40138, [25]);
   (40140, [205; 91; 25; 89; 143; 30]);
   (40141, [89; 217; 153])].
Definition pos_chars_26 : list (char * list N) :=
  [(40142, [205; 89]);
   (40143, [25; 15]);
   (40144, [205; 91]);
   (40147, [205]);
   (40148, [217; 89; 25]);
   (40149, [25; 89]);
   (40150, [217; 89; 25; 79; 153]);
   (40151, [25; 218; 89; 116; 155]);
   (40152, [205]);
   (40153, [25]);
   (40156, [25]);
   (40157, [89; 25]);
   (40158, [217; 25; 89; 143; 91; 155; 153; 15; 52; 126; 62]);
   (40159, [89; 25; 153]);
   (40162, [205; 89]);
   (40479, [217; 25; 89; 52; 91; 153; 143; 79; 15; 155; 32; 84; 148; 116; 96; 30; 27; 29]);
   (40480, [27; 89; 93; 15; 143]);
   (40481, [217; 25; 89; 94; 15; 153; 143; 30; 52; 116; 32; 79; 20; 158; 91; 160; 155; 148; 96; 180; 120; 29; 107; 159; 43]);
   (40482, [25; 218; 89; 91]);
   (40483, [116; 244; 91; 153; 52; 155; 246; 25; 79; 120; 89; 143; 15; 84; 56; 93; 30; 148; 158; 20; 29; 96; 102; 156; 28; 94; 92]);
   (40485, [89; 218; 91; 155; 25]);
   (40486, [25; 32; 89; 15; 160; 116; 148; 158; 30]);
   (40488, [25; 89]);
   (40489, [218; 25; 143]);
   (40490, [89; 251; 155; 153]);
   (40491, [205]);
   (40492, [25]);
   (40493, [218; 25; 89; 30; 158; 153; 96; 32; 116; 132; 143]);
   (40495, [89; 251; 91; 153; 79; 155]);
   (40497, [205; 25]);
   (40498, [205; 25]);
   (40499, [25; 153; 155; 143]);
   (40501, [25; 20; 89]);
   (40502, [89; 251]);
   (40503, [64; 25]);
   (40504, [25]);
   (40505, [251; 89]);
   (40506, [251]);
   (40509, [25; 89; 218; 91; 160; 96; 155; 32]);
   (40510, [219; 91; 25; 155; 143; 116; 15]);
   (40511, [155; 91; 219; 25; 218; 194; 89; 143; 92; 32; 160; 27; 15; 79; 30; 93; 153; 148; 29; 96]);
   (40513, [25]);
   (40514, [89; 219; 251; 155; 91]);
   (40515, [91; 251; 89; 153; 148; 160; 155]);
   (40516, [218; 91; 155; 89; 143; 148]);
   (40517, [89; 217; 25; 96; 30; 153; 160; 158; 4; 32; 15; 155; 143; 148; 91; 20; 159]);
   (40518, [251; 89]);
   (40519, [89; 251]);
   (40520, [25]);
   (40521, [89; 153; 251; 91; 143]);
   (40522, [218; 89; 91; 30; 143; 25; 15; 158]);
   (40523, [89; 251]);
   (40524, [25]);
   (40526, [205]);
   (40527, [91; 219; 155; 89; 96; 32; 156; 92; 15; 158; 30]);
   (40529, [89; 251; 15; 91]);
   (40533, [251; 89]);
   (40535, [218; 91]);
   (40536, [94; 251; 143]);
   (40538, [89; 251]);
   (40539, [205]);
   (40540, [79; 218; 148; 89]);
   (40542, [218; 25; 89; 4; 91]);
   (40547, [205]);
   (40548, [217; 91; 89; 155; 30; 25; 15; 143; 96; 79; 29; 153; 32; 158; 148; 31; 92; 20; 159; 156]);
   (40550, [25; 15; 155]);
   (40551, [25]);
   (40552, [205; 89]);
   (40553, [251; 25; 89; 91]);
   (40554, [25]);
   (40555, [30; 217; 89; 155; 91]);
   (40556, [15; 25]);
   (40557, [218; 91; 89; 25; 30; 96; 155]);
   (40560, [217; 91; 89; 25; 96; 155; 32; 153; 160; 30; 4; 29; 15; 158; 20; 93]);
   (40561, [205]);
   (40563, [89; 205; 30; 91; 160; 155]);
   (40574, [205]);
   (40575, [27; 217; 89; 25; 91; 155; 158; 30; 96; 160; 94; 219; 143; 93; 116; 15; 84; 29; 79]);
   (40578, [25; 89]);
   (40583, [205; 91]);
   (40584, [205; 155]);
   (40587, [25]);
   (40594, [25; 155; 30]);
   (40595, [76; 89; 218; 91; 155; 159; 106; 94]);
   (40605, [25]);
   (40607, [91; 89; 218; 155; 143; 158; 153; 32; 29; 96; 15]);
   (40614, [89; 27; 25; 218; 94; 91; 30; 219; 32; 155; 29; 158; 93; 153; 160; 4; 52; 116; 159; 143; 96; 180; 43]);
   (40628, [219]);
   (40632, [25; 89]);
   (40635, [25; 89; 217; 27; 3; 52; 0; 153; 155; 190; 126; 91; 116; 15; 79; 148; 56; 62; 244; 30; 31; 64; 84; 4; 81; 159; 143; 158; 96; 180; 29; 94; 32; 160]);
   (40637, [251]);
   (40638, [25]);
   (40644, [25; 27; 30; 192; 43; 89; 153; 68; 126; 91; 17; 32; 28; 31; 155; 116; 143; 20; 158; 81; 148; 96; 62; 94; 15; 52; 93; 79; 160; 190; 159; 64; 4; 29; 180; 145]);
   (40649, [205]);
   (40653, [218; 89; 25]);
   (40654, [94; 27; 43; 158; 209; 91; 30; 155; 25; 148; 159; 32; 31; 29; 92; 153; 160; 28]);
   (40655, [25; 192; 0; 52]);
   (40657, [25; 192; 30; 27; 126; 62; 116; 0; 94; 91; 4; 153; 158; 20; 93; 143; 29; 32; 89; 155; 15; 68; 84; 148; 31; 79; 64; 190; 96; 180; 159; 81; 160]);
   (40660, [209; 30; 81; 155; 31; 96; 17; 91; 25; 29; 15; 158; 160]);
   (40664, [64; 62; 190; 116; 71; 7; 157; 52; 244; 91; 155; 143; 0; 20; 15; 29; 148; 153; 158; 96; 27; 89; 93; 120; 56; 32; 31; 25; 1; 30]);
   (40667, [27; 155; 218; 91; 89; 25; 29; 156]);
   (40668, [116; 143; 52]);
   (40669, [62; 126; 190; 25]);
   (40671, [30; 205]);
   (40672, [64; 25; 205]);
   (40674, [126; 190; 194]);
   (40677, [205]);
   (40679, [62]);
   (40681, [143; 52]);
   (40687, [62; 0; 15; 20; 3]);
   (40697, [89; 205]);
   (40699, [205; 143]);
   (40700, [205; 15]);
   (40702, [251; 91; 52]);
   (40715, [30; 25]);
   (40717, [205]);
   (40718, [91; 218; 89; 62; 143; 155; 52; 116; 148; 96; 79; 15; 84; 30; 7; 25; 153; 20; 156; 160; 158; 94; 32]);
   (40720, [91; 205; 155; 79]);
   (40723, [52; 244; 25; 89; 116; 79; 143; 153; 190; 62; 84; 91; 158; 148; 155; 20; 126; 30; 217; 32; 15; 96; 56; 29; 0]);
   (40727, [205; 91]);
   (40729, [251]);
   (40736, [89; 217; 25; 153; 143; 116; 91; 79; 218; 43; 15; 52; 84; 107; 20; 96]);
   (40738, [25]);
   (40748, [89; 25]);
   (40751, [25]);
   (40761, [25; 89]);
   (40763, [25; 218; 116; 91; 153; 52; 64; 143; 89; 94; 180; 148; 79; 42; 20; 84; 15; 158; 32; 160; 155; 68]);
   (40766, [25; 116; 52]);
   (40772, [205]);
   (40784, [192; 27; 71; 199; 0; 64; 52; 91; 107; 94; 25; 158; 32; 7; 155; 143; 116; 30; 156; 190; 126; 15; 79; 62; 93; 20; 148; 28; 4; 1; 159; 29; 244; 157; 84; 31; 180; 86]);
   (40785, [205; 25]);
   (40831, [89; 217; 25; 79; 153; 116; 91; 143; 84; 68; 32; 148; 96; 20; 71; 160]);
   (40832, [205; 91]);
   (40835, [25]);
   (40836, [89; 91; 218; 68; 153; 227; 180; 116; 155; 132; 184; 25; 159; 158; 92]);
   (40837, [25]);
   (40838, [205; 91]);
   (40839, [244; 15]);
   (40840, [89; 205; 153]);
   (40841, [251; 89]);
   (40842, [251; 64; 79]);
   (40843, [25; 116]);
   (40844, [0; 143]);
   (40857, [217; 25; 91; 158; 89; 27; 30; 94; 96; 155; 153; 32; 143; 160; 93; 15; 29; 79; 28; 148; 92; 159; 4; 31; 116; 81; 17; 84; 20; 107; 43]);
   (40858, [27; 219; 155; 91; 28; 30]);
   (40859, [218; 89]);
   (40863, [217; 89; 25; 30; 32; 155; 91; 52; 153; 20; 96; 158; 29; 218; 143]);
   (40864, [205])].

(** char_state_tab.py: the states of each character *)
Definition pos_chars : list (char * list N) :=
  pos_chars_0
  ++ pos_chars_1
  ++ pos_chars_2
  ++ pos_chars_3
  ++ pos_chars_4
  ++ pos_chars_5
  ++ pos_chars_6
  ++ pos_chars_7
  ++ pos_chars_8
  ++ pos_chars_9
  ++ pos_chars_10
  ++ pos_chars_11
  ++ pos_chars_12
  ++ pos_chars_13
  ++ pos_chars_14
  ++ pos_chars_15
  ++ pos_chars_16
  ++ pos_chars_17
  ++ pos_chars_18
  ++ pos_chars_19
  ++ pos_chars_20
  ++ pos_chars_21
  ++ pos_chars_22
  ++ pos_chars_23
  ++ pos_chars_24
  ++ pos_chars_25
  ++ pos_chars_26.
