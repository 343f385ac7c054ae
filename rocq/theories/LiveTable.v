(* GENERATED by gen/gen_live.py from MachineTables.v and gen/live_inputs*.json -- do not edit.
   Data that PropsLive.v checks: nothing here is trusted. *)
From Verif Require Import GoBase MachineSyntax MachineTables Machine Live.
Local Open Scope N_scope.

Inductive item := IState (k : N) | IEnd (k : N) | ITr (n : N) | IBlock (q : part) | ITake (q : part) (p : list nat) (v : bool).

(* for each state the labels its case jumps to *)
Definition live_outs : list (list N) :=
  [[];
   [0; 1];
   [0; 2];
   [0; 3];
   [0; 4];
   [5; 6; 7];
   [8; 9; 10];
   [8; 10; 11];
   [8; 10; 12];
   [8; 10; 13];
   [8; 10; 14];
   [8; 10; 15];
   [8; 10; 16];
   [8; 10; 17];
   [8; 10; 18];
   [8; 10; 19];
   [8; 10; 20];
   [8; 10; 21];
   [8; 10; 22];
   [8; 10; 23];
   [8; 10; 24];
   [8; 10; 25];
   [8; 10; 26];
   [8; 10; 27];
   [8; 10; 28];
   [8; 10; 29];
   [8; 10; 30];
   [8; 10; 31];
   [8; 10; 32];
   [8; 10; 33];
   [8; 10; 34];
   [8; 10; 35];
   [8; 10; 36];
   [8; 10; 37];
   [8; 10; 38];
   [8; 10; 39];
   [8; 10; 40];
   [8; 10];
   [41; 42; 43];
   [44; 45; 46];
   [44; 47; 48];
   [5; 9; 10; 49];
   [5; 10; 11; 50];
   [12; 51];
   [0; 52];
   [0; 53];
   [0; 54];
   [0; 55];
   [56; 57];
   [56; 58];
   [56; 59];
   [56; 60];
   [56; 61];
   [56; 62];
   [56; 63];
   [56; 64];
   [56; 65];
   [56; 66];
   [56; 67];
   [56; 68];
   [56; 69];
   [56; 70];
   [56; 71];
   [56; 72];
   [56; 73];
   [74; 75; 76; 77];
   [74; 78];
   [74; 79];
   [74; 80];
   [81; 82];
   [83; 84; 85];
   [86; 87; 88];
   [86; 89; 90];
   [74; 91];
   [74; 92];
   [74; 93];
   [74; 79];
   [74; 94];
   [74; 95];
   [74; 96];
   [74; 97];
   [74; 98];
   [74; 79];
   [0; 99];
   [0; 100];
   [0; 101];
   [0; 102];
   [103; 104; 105];
   [106; 107; 108];
   [106; 109; 110];
   [106; 111; 112];
   [106; 113; 114];
   [106; 115; 116];
   [106; 117; 118];
   [106; 119; 120];
   [106; 121; 122];
   [106; 123; 124];
   [106; 125; 126];
   [106; 127; 128];
   [106; 129; 130];
   [106; 131; 132];
   [106; 133; 134];
   [106; 135; 136];
   [106; 137; 138];
   [106; 139; 140];
   [106; 141; 142];
   [106; 143; 144];
   [106; 145; 146];
   [106; 147; 148];
   [106; 149; 150];
   [106; 151; 152];
   [106; 153; 154];
   [106; 155; 156];
   [106; 157; 158];
   [106; 159; 160];
   [106; 161; 162];
   [106; 163; 164];
   [106; 165; 166];
   [106; 167];
   [106; 168];
   [169; 170; 171];
   [172; 173; 174];
   [172; 175; 176];
   [177; 178; 179];
   [177; 180; 181];
   [182; 183; 184];
   [185; 186; 187; 188];
   [189; 190; 191];
   [189; 192; 193];
   [194; 195; 196];
   [194; 197; 198];
   [199; 200; 201];
   [197; 198; 199];
   [185; 202];
   [184; 185; 202];
   [203; 204; 205; 206];
   [203; 207];
   [106; 167; 168];
   [106; 165; 166; 168];
   [106; 163; 164; 168];
   [106; 161; 162; 168];
   [106; 159; 160; 168];
   [106; 157; 158; 168];
   [106; 155; 156; 168];
   [106; 153; 154; 168];
   [106; 151; 152; 168];
   [106; 149; 150; 168];
   [106; 147; 148; 168];
   [106; 145; 146; 168];
   [106; 143; 144; 168];
   [106; 141; 142; 168];
   [106; 139; 140; 168];
   [106; 137; 138; 168];
   [106; 135; 136; 168];
   [106; 133; 134; 168];
   [106; 131; 132; 168];
   [106; 129; 130; 168];
   [106; 127; 128; 168];
   [106; 125; 126; 168];
   [106; 123; 124; 168];
   [106; 121; 122; 168];
   [106; 119; 120; 168];
   [106; 117; 118; 168];
   [106; 115; 116; 168];
   [106; 113; 114; 168];
   [106; 111; 112; 168];
   [106; 109; 110; 168];
   [103; 107; 108; 208];
   [103; 109; 110; 168; 209];
   [106; 112; 168; 210];
   [106; 113; 114; 211];
   [106; 115; 116];
   [41; 212; 213];
   [44; 212; 213];
   [81; 214; 215];
   [83; 216; 217];
   [86; 216; 217];
   [169; 218; 219; 220; 221];
   [183; 222; 223];
   [183; 224; 225];
   [172; 224; 225];
   [177; 218; 219; 220; 221];
   [185; 226; 227; 228; 229];
   [189; 226; 227; 228; 229];
   [185; 226; 227; 228; 229; 230; 231];
   [185; 226; 232; 233; 234; 235];
   [204; 226; 227; 229; 236; 237];
   [203; 238; 239; 240; 241];
   [194; 238; 239; 240; 241];
   [203; 238; 239; 240; 241; 242];
   [203; 238; 243; 244; 245; 246];
   [185; 232; 233; 234; 247];
   [203; 243; 244; 245; 248];
   [183; 249]].

(* for each state the mode (0: no listed one) and the values of rStart and qStart it is met with *)
Definition live_cfg : list (list (Z * bool * bool)) :=
  [[];
   [(0%Z, false, false); (1%Z, false, false)];
   [(0%Z, false, false); (1%Z, false, false)];
   [(0%Z, false, false); (1%Z, false, false)];
   [(0%Z, false, false); (1%Z, false, false)];
   [(0%Z, false, false); (1%Z, false, false)];
   [(0%Z, false, false); (1%Z, false, false)];
   [(0%Z, false, false); (1%Z, false, false)];
   [(0%Z, false, false); (1%Z, false, false)];
   [(0%Z, false, false); (1%Z, false, false)];
   [(0%Z, false, false); (1%Z, false, false)];
   [(0%Z, false, false); (1%Z, false, false)];
   [(0%Z, false, false); (1%Z, false, false)];
   [(0%Z, false, false); (1%Z, false, false)];
   [(0%Z, false, false); (1%Z, false, false)];
   [(0%Z, false, false); (1%Z, false, false)];
   [(0%Z, false, false); (1%Z, false, false)];
   [(0%Z, false, false); (1%Z, false, false)];
   [(0%Z, false, false); (1%Z, false, false)];
   [(0%Z, false, false); (1%Z, false, false)];
   [(0%Z, false, false); (1%Z, false, false)];
   [(0%Z, false, false); (1%Z, false, false)];
   [(0%Z, false, false); (1%Z, false, false)];
   [(0%Z, false, false); (1%Z, false, false)];
   [(0%Z, false, false); (1%Z, false, false)];
   [(0%Z, false, false); (1%Z, false, false)];
   [(0%Z, false, false); (1%Z, false, false)];
   [(0%Z, false, false); (1%Z, false, false)];
   [(0%Z, false, false); (1%Z, false, false)];
   [(0%Z, false, false); (1%Z, false, false)];
   [(0%Z, false, false); (1%Z, false, false)];
   [(0%Z, false, false); (1%Z, false, false)];
   [(0%Z, false, false); (1%Z, false, false)];
   [(0%Z, false, false); (1%Z, false, false)];
   [(0%Z, false, false); (1%Z, false, false)];
   [(0%Z, false, false); (1%Z, false, false)];
   [(0%Z, false, false); (1%Z, false, false)];
   [(0%Z, false, false); (1%Z, false, false)];
   [(0%Z, false, false); (1%Z, false, false)];
   [(0%Z, false, false); (1%Z, false, false)];
   [(0%Z, false, false); (1%Z, false, false)];
   [(0%Z, false, false); (1%Z, false, false)];
   [(0%Z, false, false); (1%Z, false, false)];
   [(0%Z, false, false); (1%Z, false, false)];
   [(0%Z, false, false); (2%Z, false, false)];
   [(0%Z, false, false); (2%Z, false, false)];
   [(0%Z, false, false); (2%Z, false, false)];
   [(0%Z, false, false); (2%Z, false, false)];
   [(0%Z, false, false); (2%Z, false, false)];
   [(0%Z, false, false); (2%Z, false, false)];
   [(0%Z, false, false); (2%Z, false, false)];
   [(0%Z, false, false); (2%Z, false, false)];
   [(0%Z, false, false); (2%Z, false, false)];
   [(0%Z, false, false); (2%Z, false, false)];
   [(0%Z, false, false); (2%Z, false, false)];
   [(0%Z, false, false); (2%Z, false, false)];
   [(0%Z, false, false); (2%Z, false, false)];
   [(0%Z, false, false); (2%Z, false, false)];
   [(0%Z, false, false); (2%Z, false, false)];
   [(0%Z, false, false); (2%Z, false, false)];
   [(0%Z, false, false); (2%Z, false, false)];
   [(0%Z, false, false); (2%Z, false, false)];
   [(0%Z, false, false); (2%Z, false, false)];
   [(0%Z, false, false); (2%Z, false, false)];
   [(0%Z, false, false); (2%Z, false, false)];
   [(0%Z, false, false); (2%Z, false, false)];
   [(0%Z, false, false); (2%Z, false, false)];
   [(0%Z, false, false); (2%Z, false, false)];
   [(0%Z, false, false); (2%Z, false, false)];
   [(0%Z, false, false); (2%Z, false, false)];
   [(0%Z, false, false); (2%Z, false, false)];
   [(0%Z, false, false); (2%Z, false, false)];
   [(0%Z, false, false); (2%Z, false, false)];
   [(0%Z, false, false); (2%Z, false, false)];
   [(0%Z, false, false); (2%Z, false, false)];
   [(0%Z, false, false); (2%Z, false, false)];
   [(0%Z, false, false); (2%Z, false, false)];
   [(0%Z, false, false); (2%Z, false, false)];
   [(0%Z, false, false); (2%Z, false, false)];
   [(0%Z, false, false); (2%Z, false, false)];
   [(0%Z, false, false); (2%Z, false, false)];
   [(0%Z, false, false); (2%Z, false, false)];
   [(0%Z, false, false); (2%Z, false, false)];
   [(0%Z, false, false); (3%Z, false, false)];
   [(0%Z, false, false); (3%Z, false, false)];
   [(0%Z, false, false); (3%Z, false, false)];
   [(0%Z, false, false); (3%Z, false, false)];
   [(0%Z, false, false); (3%Z, false, false)];
   [(0%Z, false, false); (3%Z, false, false)];
   [(0%Z, false, false); (3%Z, false, false)];
   [(0%Z, false, false); (3%Z, false, false)];
   [(0%Z, false, false); (3%Z, false, false)];
   [(0%Z, false, false); (3%Z, false, false)];
   [(0%Z, false, false); (3%Z, false, false)];
   [(0%Z, false, false); (3%Z, false, false)];
   [(0%Z, false, false); (3%Z, false, false)];
   [(0%Z, false, false); (3%Z, false, false)];
   [(0%Z, false, false); (3%Z, false, false)];
   [(0%Z, false, false); (3%Z, false, false)];
   [(0%Z, false, false); (3%Z, false, false)];
   [(0%Z, false, false); (3%Z, false, false)];
   [(0%Z, false, false); (3%Z, false, false)];
   [(0%Z, false, false); (3%Z, false, false)];
   [(0%Z, false, false); (3%Z, false, false)];
   [(0%Z, false, false); (3%Z, false, false)];
   [(0%Z, false, false); (3%Z, false, false)];
   [(0%Z, false, false); (3%Z, false, false)];
   [(0%Z, false, false); (3%Z, false, false)];
   [(0%Z, false, false); (3%Z, false, false)];
   [(0%Z, false, false); (3%Z, false, false)];
   [(0%Z, false, false); (3%Z, false, false)];
   [(0%Z, false, false); (3%Z, false, false)];
   [(0%Z, false, false); (3%Z, false, false)];
   [(0%Z, false, false); (3%Z, false, false)];
   [(0%Z, false, false); (3%Z, false, false)];
   [(0%Z, false, false); (3%Z, false, false)];
   [(0%Z, false, false); (3%Z, false, false)];
   [(0%Z, false, false); (3%Z, false, false)];
   [(0%Z, false, false); (3%Z, false, false)];
   [(0%Z, false, false); (3%Z, false, false)];
   [(0%Z, false, false); (3%Z, false, false)];
   [(0%Z, false, false); (0%Z, false, true); (0%Z, true, false); (0%Z, true, true); (3%Z, false, false); (3%Z, false, true); (3%Z, true, false); (3%Z, true, true)];
   [(0%Z, false, false); (0%Z, false, true); (0%Z, true, false); (0%Z, true, true); (3%Z, false, false); (3%Z, false, true); (3%Z, true, false); (3%Z, true, true)];
   [(0%Z, false, false); (3%Z, false, false)];
   [(0%Z, false, false); (3%Z, false, false)];
   [(0%Z, false, false); (3%Z, false, false)];
   [(0%Z, false, false); (3%Z, false, false)];
   [(0%Z, true, false); (3%Z, true, false)];
   [(0%Z, true, false); (3%Z, true, false)];
   [(0%Z, false, true); (0%Z, true, true); (3%Z, false, true); (3%Z, true, true)];
   [(0%Z, false, true); (0%Z, true, true); (3%Z, false, true); (3%Z, true, true)];
   [(0%Z, true, true); (3%Z, true, true)];
   [(0%Z, true, true); (3%Z, true, true)];
   [(0%Z, true, false); (3%Z, true, false)];
   [];
   [(0%Z, false, false); (3%Z, false, false)];
   [(0%Z, false, true); (3%Z, false, true)];
   [(0%Z, false, false); (3%Z, false, false)];
   [(0%Z, false, false); (3%Z, false, false)];
   [(0%Z, false, false); (3%Z, false, false)];
   [(0%Z, false, false); (3%Z, false, false)];
   [(0%Z, false, false); (3%Z, false, false)];
   [(0%Z, false, false); (3%Z, false, false)];
   [(0%Z, false, false); (3%Z, false, false)];
   [(0%Z, false, false); (3%Z, false, false)];
   [(0%Z, false, false); (3%Z, false, false)];
   [(0%Z, false, false); (3%Z, false, false)];
   [(0%Z, false, false); (3%Z, false, false)];
   [(0%Z, false, false); (3%Z, false, false)];
   [(0%Z, false, false); (3%Z, false, false)];
   [(0%Z, false, false); (3%Z, false, false)];
   [(0%Z, false, false); (3%Z, false, false)];
   [(0%Z, false, false); (3%Z, false, false)];
   [(0%Z, false, false); (3%Z, false, false)];
   [(0%Z, false, false); (3%Z, false, false)];
   [(0%Z, false, false); (3%Z, false, false)];
   [(0%Z, false, false); (3%Z, false, false)];
   [(0%Z, false, false); (3%Z, false, false)];
   [(0%Z, false, false); (3%Z, false, false)];
   [(0%Z, false, false); (3%Z, false, false)];
   [(0%Z, false, false); (3%Z, false, false)];
   [(0%Z, false, false); (3%Z, false, false)];
   [(0%Z, false, false); (3%Z, false, false)];
   [(0%Z, false, false); (3%Z, false, false)];
   [(0%Z, false, false); (3%Z, false, false)];
   [(0%Z, false, false); (3%Z, false, false)];
   [(0%Z, false, false); (3%Z, false, false)];
   [(0%Z, false, false); (3%Z, false, false)];
   [(0%Z, false, false); (3%Z, false, false)];
   [(0%Z, false, false); (3%Z, false, false)];
   [(0%Z, false, false); (3%Z, false, false)];
   [];
   [(0%Z, false, false); (1%Z, false, false)];
   [(0%Z, false, false); (1%Z, false, false)];
   [(0%Z, false, false); (2%Z, false, false)];
   [(0%Z, false, false); (2%Z, false, false)];
   [(0%Z, false, false); (2%Z, false, false)];
   [(0%Z, false, false); (3%Z, false, false)];
   [(0%Z, false, false); (0%Z, false, true); (0%Z, true, false); (0%Z, true, true); (3%Z, false, false); (3%Z, false, true); (3%Z, true, false); (3%Z, true, true)];
   [(0%Z, false, false); (0%Z, false, true); (0%Z, true, false); (0%Z, true, true); (3%Z, false, false); (3%Z, false, true); (3%Z, true, false); (3%Z, true, true)];
   [(0%Z, false, false); (0%Z, false, true); (0%Z, true, false); (0%Z, true, true); (3%Z, false, false); (3%Z, false, true); (3%Z, true, false); (3%Z, true, true)];
   [(0%Z, false, false); (3%Z, false, false)];
   [(0%Z, true, false); (3%Z, true, false)];
   [(0%Z, true, false); (3%Z, true, false)];
   [(0%Z, true, false); (3%Z, true, false)];
   [(0%Z, true, false); (3%Z, true, false)];
   [(0%Z, true, false); (3%Z, true, false)];
   [(0%Z, false, true); (0%Z, true, true); (3%Z, false, true); (3%Z, true, true)];
   [(0%Z, false, true); (0%Z, true, true); (3%Z, false, true); (3%Z, true, true)];
   [(0%Z, false, true); (0%Z, true, true); (3%Z, false, true); (3%Z, true, true)];
   [(0%Z, false, true); (0%Z, true, true); (3%Z, false, true); (3%Z, true, true)];
   [(0%Z, true, false); (3%Z, true, false)];
   [(0%Z, false, true); (3%Z, false, true)];
   [(0%Z, false, false); (0%Z, false, true); (0%Z, true, false); (0%Z, true, true); (1%Z, false, false); (2%Z, false, false); (3%Z, false, false); (3%Z, false, true); (3%Z, true, false); (3%Z, true, true)]].

(* modes given to the machine, text, what it is the witness for *)
Definition live_texts : list (list Z * bytes * list item) :=
  [([1]%Z, B "URN:0-------------------------------:%A!",
    [IBlock (PF 1); IBlock (PF 2); IBlock (PF 4); IBlock (PF 6); IBlock (PF 8); IBlock (PF 9); IEnd 193; IState 1; IState 10; IState 11; IState 12; IState 13; IState 14; IState 15; IState 16; IState 17; IState 18; IState 19; IState 193; IState 2; IState 20; IState 21; IState 22; IState 23; IState 24; IState 25; IState 26; IState 27; IState 28; IState 29; IState 3; IState 30; IState 31; IState 32; IState 33; IState 34; IState 35; IState 36; IState 37; IState 38; IState 39; IState 4; IState 40; IState 5; IState 6; IState 7; IState 8; IState 9; ITake (PF 1) [1; 1; 0]%nat false; ITake (PF 1) [1]%nat true; ITake (PF 8) [0]%nat true; ITr 1; ITr 10; ITr 11; ITr 12; ITr 13; ITr 14; ITr 15; ITr 16; ITr 17; ITr 18; ITr 19; ITr 2; ITr 20; ITr 21; ITr 22; ITr 23; ITr 24; ITr 249; ITr 25; ITr 26; ITr 27; ITr 28; ITr 29; ITr 3; ITr 30; ITr 31; ITr 32; ITr 33; ITr 34; ITr 35; ITr 36; ITr 37; ITr 38; ITr 39; ITr 4; ITr 40; ITr 43; ITr 44; ITr 46; ITr 6; ITr 9]);
   ([3]%Z, B "URN:0------------------------------0:!#&",
    [IBlock (PEof 41); IBlock (PF 38); IEnd 179; IState 100; IState 101; IState 102; IState 103; IState 104; IState 105; IState 106; IState 107; IState 108; IState 109; IState 110; IState 111; IState 112; IState 113; IState 114; IState 115; IState 116; IState 117; IState 118; IState 119; IState 120; IState 177; IState 178; IState 83; IState 84; IState 85; IState 86; IState 87; IState 88; IState 89; IState 90; IState 91; IState 92; IState 93; IState 94; IState 95; IState 96; IState 97; IState 98; IState 99; ITake (PF 1) [1]%nat false; ITr 100; ITr 101; ITr 102; ITr 104; ITr 107; ITr 109; ITr 111; ITr 113; ITr 115; ITr 117; ITr 119; ITr 121; ITr 123; ITr 125; ITr 127; ITr 129; ITr 131; ITr 133; ITr 135; ITr 137; ITr 139; ITr 141; ITr 143; ITr 145; ITr 147; ITr 149; ITr 151; ITr 153; ITr 155; ITr 157; ITr 159; ITr 161; ITr 163; ITr 165; ITr 167; ITr 168; ITr 170; ITr 219; ITr 222; ITr 99]);
   ([2]%Z, (["085"; "082"; "078"; "058"; "105"; "101"; "116"; "102"; "058"; "112"; "097"; "114"; "097"; "109"; "115"; "058"; "115"; "099"; "105"; "109"; "058"; "097"; "112"; "105"; "058"; "048"; "058"; "037"; "048"; "048"; "033"; "037"; "070"; "010"]%byte : bytes),
    [IBlock (PF 12); IBlock (PF 14); IBlock (PF 16); IBlock (PF 18); IBlock (PF 19); IBlock (PF 35); IState 174; IState 175; IState 176; IState 44; IState 45; IState 46; IState 47; IState 48; IState 49; IState 50; IState 51; IState 52; IState 53; IState 54; IState 55; IState 56; IState 57; IState 58; IState 59; IState 60; IState 61; IState 62; IState 63; IState 64; IState 65; IState 66; IState 67; IState 68; IState 69; IState 70; IState 71; IState 72; ITake (PF 19) [0]%nat false; ITake (PF 19) [1]%nat false; ITr 183; ITr 215; ITr 216; ITr 217; ITr 52; ITr 53; ITr 54; ITr 55; ITr 57; ITr 58; ITr 59; ITr 60; ITr 61; ITr 62; ITr 63; ITr 64; ITr 65; ITr 66; ITr 67; ITr 68; ITr 69; ITr 70; ITr 71; ITr 72; ITr 73; ITr 75; ITr 78; ITr 79; ITr 80; ITr 82; ITr 85; ITr 86; ITr 87; ITr 88; ITr 89]);
   ([3]%Z, B "URN:00:!?+!?=!#%00!%A",
    [IBlock (PEof 24); IBlock (PF 26); IBlock (PF 31); IBlock (PF 42); IBlock (PF 48); IEnd 122; IState 121; IState 122; IState 125; IState 126; IState 166; IState 179; IState 180; IState 182; IState 184; IState 186; IState 187; ITake (PEof 24) [0]%nat true; ITake (PF 26) [0]%nat false; ITake (PF 31) [0]%nat false; ITr 108; ITr 173; ITr 174; ITr 175; ITr 182; ITr 186; ITr 204; ITr 221; ITr 223; ITr 224; ITr 225; ITr 229; ITr 231; ITr 239]);
   ([3]%Z, B "URN:URN-1000",
    [IBlock (PEof 22); IEnd 160; IState 161; IState 162; IState 163; IState 167; IState 168; IState 169; IState 170; ITr 105; ITr 114; ITr 116; ITr 118; ITr 120; ITr 208; ITr 209; ITr 210]);
   ([3]%Z, B "URN:00:!?=%00?=/%",
    [IBlock (PEof 29); IEnd 129; IState 129; IState 130; IState 135; IState 188; IState 189; IState 190; ITake (PEof 29) [0]%nat true; ITr 184; ITr 195; ITr 197; ITr 205; ITr 238; ITr 240; ITr 241; ITr 242]);
   ([2]%Z, B "URN:ietf:params:scim:schemas:00",
    [IBlock (PEof 35); IEnd 174; IState 77; IState 78; IState 79; IState 80; IState 81; IState 82; ITr 214; ITr 77; ITr 94; ITr 95; ITr 96; ITr 97; ITr 98]);
   ([3]%Z, B "URN:00:!?+%00?+/%",
    [IBlock (PEof 28); IEnd 127; IState 127; IState 128; IState 183; IState 185; ITake (PEof 28) [0]%nat true; ITr 187; ITr 190; ITr 192; ITr 226; ITr 228; ITr 230]);
   ([1]%Z, B "URN:URN-:!%",
    [IBlock (PEof 9); IEnd 39; IState 172; IState 41; IState 42; IState 43; ITake (PEof 9) [0]%nat true; ITr 213; ITr 42; ITr 49; ITr 50; ITr 7]);
   ([3]%Z, B "URN:00:%00!%A",
    [IBlock (PEof 25); IEnd 124; IState 123; IState 124; IState 181; ITake (PEof 25) [0]%nat true; ITr 171; ITr 178; ITr 179; ITr 180; ITr 218; ITr 220]);
   ([2]%Z, B "URN:ietf:params:scim:param:1:",
    [IBlock (PEof 18); IEnd 70; IState 73; IState 74; IState 75; IState 76; ITake (PEof 18) [0]%nat true; ITr 76; ITr 91; ITr 92; ITr 93]);
   ([3]%Z, (["085"; "082"; "078"; "058"; "048"; "045"; "045"; "045"; "045"; "045"; "045"; "045"; "045"; "045"; "045"; "045"; "045"; "045"; "045"; "045"; "045"; "045"; "045"; "045"; "045"; "045"; "045"; "045"; "045"; "045"; "045"; "048"; "048"; "048"; "117"; "010"]%byte : bytes),
    [IBlock (PF 21); IState 137; IState 138; IState 139; IState 140; ITr 106; ITr 160; ITr 162; ITr 164; ITr 166]);
   ([3]%Z, B "URN:0-------00001",
    [IEnd 155; IState 156; IState 157; IState 158; IState 159; ITr 122; ITr 124; ITr 126; ITr 128; ITr 130]);
   ([3]%Z, B "URN:0------------0000:",
    [IBlock (PEof 23); IEnd 120; IState 151; IState 152; IState 153; IState 154; ITr 132; ITr 134; ITr 136; ITr 138]);
   ([3]%Z, B "URN:0----------------0000F",
    [IEnd 146; IState 147; IState 148; IState 149; IState 150; ITr 140; ITr 142; ITr 144; ITr 146; ITr 148]);
   ([3]%Z, B "URN:0---------------------00001",
    [IEnd 141; IState 142; IState 143; IState 144; IState 145; ITr 150; ITr 152; ITr 154; ITr 156; ITr 158]);
   ([3]%Z, (["085"; "082"; "078"; "058"; "048"; "048"; "058"; "033"; "063"; "043"; "033"; "063"; "061"; "037"; "048"; "065"; "000"]%byte : bytes),
    [IBlock (PF 28); IState 131; IState 132; ITake (PF 28) [0]%nat true; ITr 194; ITr 198; ITr 200; ITr 237]);
   ([3]%Z, (["085"; "082"; "078"; "058"; "048"; "045"; "048"; "048"; "058"; "037"; "010"]%byte : bytes),
    [IBlock (PF 24); IState 164; IState 165; ITake (PF 24) [0]%nat true; ITr 110; ITr 112; ITr 177]);
   ([1]%Z, B "URN:0:%00!%0N",
    [IBlock (PEof 34); IEnd 173; IState 173; ITr 212; ITr 45; ITr 47; ITr 48]);
   ([3]%Z, B "URN:00:!?+?+!",
    [IBlock (PF 44); IState 133; IState 191; ITake (PF 44) [0]%nat true; ITr 188; ITr 202; ITr 232]);
   ([3]%Z, B "URN:00:!?=?=!",
    [IBlock (PF 50); IState 136; IState 192; ITake (PF 50) [0]%nat true; ITr 206; ITr 207; ITr 243]);
   ([2]%Z, B "URN:ietf:params:scim:api:0:!%0F%",
    [IBlock (PEof 20); IEnd 71; ITake (PEof 20) [0]%nat false; ITake (PEof 20) [1]%nat true; ITr 84; ITr 90]);
   ([3]%Z, (["085"; "082"; "078"; "058"; "048"; "048"; "058"; "033"; "063"; "043"; "033"; "035"; "037"; "048"; "065"; "000"]%byte : bytes),
    [IBlock (PF 23); ITake (PF 23) [0]%nat true; ITr 172; ITr 176; ITr 227]);
   ([3]%Z, (["085"; "082"; "078"; "058"; "048"; "048"; "058"; "033"; "063"; "043"; "037"; "065"; "000"]%byte : bytes),
    [IBlock (PF 27); ITake (PF 27) [0]%nat true; ITr 189; ITr 191]);
   ([3]%Z, B "URN:00:!?+!?=%A",
    [IBlock (PEof 30); IEnd 132; ITake (PEof 30) [0]%nat true; ITr 201]);
   ([3]%Z, B "URN:0------0:%0A",
    [IBlock (PEof 38); IEnd 181; IState 160; ITr 181]);
   ([3]%Z, B "URN:00:!?+?+",
    [IBlock (PEof 44); IEnd 191; ITake (PEof 44) [0]%nat true]);
   ([3]%Z, B "URN:00:!?=?=",
    [IBlock (PEof 50); IEnd 192; ITake (PEof 50) [0]%nat true]);
   ([3]%Z, B "URN:00:!?+%0A",
    [IBlock (PEof 42); IEnd 183; ITr 193]);
   ([3]%Z, B "URN:00:!?+?+#",
    [IBlock (PF 45); ITake (PF 45) [0]%nat true; ITr 233]);
   ([3]%Z, B "URN:00:!?=%AA",
    [IBlock (PEof 48); IEnd 188; ITr 196]);
   ([3]%Z, B "URN:00:!?=?=#",
    [IBlock (PF 51); ITake (PF 51) [0]%nat true; ITr 244]);
   ([3]%Z, (["085"; "082"; "078"; "058"; "048"; "048"; "058"; "033"; "063"; "043"; "033"; "063"; "061"; "037"; "000"]%byte : bytes),
    [IBlock (PF 29); ITake (PF 29) [0]%nat true; ITr 199]);
   ([3]%Z, (["085"; "082"; "078"; "058"; "048"; "045"; "045"; "045"; "045"; "045"; "045"; "045"; "045"; "045"; "045"; "045"; "048"; "058"; "000"]%byte : bytes),
    [IBlock (PF 22); IState 155; ITr 169]);
   ([2]%Z, (["085"; "082"; "078"; "058"; "105"; "101"; "116"; "102"; "058"; "112"; "097"; "114"; "097"; "109"; "115"; "058"; "115"; "099"; "105"; "109"; "058"; "097"; "112"; "105"; "058"; "048"; "058"; "000"]%byte : bytes),
    [IBlock (PF 17); ITake (PF 17) [0]%nat false; ITr 83]);
   ([3]%Z, B "URN:0--------------------0:!#",
    [IBlock (PEof 40); IEnd 178; IState 146]);
   ([3]%Z, B "URN:0-------------------------0:!?+",
    [IBlock (PEof 26); IEnd 126; IState 141]);
   ([1]%Z, B "",
    [IBlock (PEof 1); IEnd 1]);
   ([1]%Z, (["000"]%byte : bytes),
    [IBlock (PF 0); ITr 0]);
   ([1]%Z, B "URN:",
    [IBlock (PEof 4); IEnd 5]);
   ([2]%Z, B "URN:",
    [IBlock (PEof 12); IEnd 48]);
   ([3]%Z, B "URN:",
    [IBlock (PEof 21); IEnd 87]);
   ([1]%Z, (["085"; "082"; "078"; "058"; "000"]%byte : bytes),
    [IBlock (PF 3); ITr 5]);
   ([1]%Z, B "URN:0",
    [IBlock (PEof 6); IEnd 6]);
   ([2]%Z, (["085"; "082"; "078"; "058"; "000"]%byte : bytes),
    [IBlock (PF 11); ITr 56]);
   ([3]%Z, (["085"; "082"; "078"; "058"; "000"]%byte : bytes),
    [IBlock (PF 20); ITr 103]);
   ([1]%Z, (["085"; "082"; "078"; "058"; "048"; "000"]%byte : bytes),
    [IBlock (PF 5); ITr 8]);
   ([1]%Z, B "URN:0:",
    [IBlock (PEof 8); IEnd 38]);
   ([1]%Z, (["085"; "082"; "078"; "058"; "048"; "058"; "000"]%byte : bytes),
    [IBlock (PF 7); ITr 41]);
   ([1]%Z, B "URN:URN",
    [IBlock (PEof 11); IEnd 43]);
   ([1]%Z, (["085"; "082"; "078"; "058"; "085"; "082"; "078"; "000"]%byte : bytes),
    [IBlock (PF 10); ITr 51]);
   ([3]%Z, B "URN:URN-0",
    [IBlock (PTo 33); ITr 211]);
   ([3]%Z, B "URN:00:!?=",
    [IBlock (PEof 31); IEnd 135]);
   ([3]%Z, (["085"; "082"; "078"; "058"; "048"; "048"; "058"; "033"; "063"; "043"; "000"]%byte : bytes),
    [IBlock (PF 25); ITr 185]);
   ([3]%Z, (["085"; "082"; "078"; "058"; "048"; "048"; "058"; "033"; "063"; "061"; "000"]%byte : bytes),
    [IBlock (PF 30); ITr 203]);
   ([3]%Z, (["085"; "082"; "078"; "058"; "048"; "048"; "058"; "033"; "063"; "043"; "033"; "063"; "061"; "000"]%byte : bytes),
    [IBlock (PF 46); ITr 236]);
   ([2]%Z, B "URN:ietf:params:scim:",
    [IBlock (PEof 14); IEnd 65]);
   ([2]%Z, (["085"; "082"; "078"; "058"; "105"; "101"; "116"; "102"; "058"; "112"; "097"; "114"; "097"; "109"; "115"; "058"; "115"; "099"; "105"; "109"; "058"; "000"]%byte : bytes),
    [IBlock (PF 13); ITr 74]);
   ([2]%Z, B "URN:ietf:params:scim:api:",
    [IBlock (PEof 16); IEnd 69]);
   ([2]%Z, (["085"; "082"; "078"; "058"; "105"; "101"; "116"; "102"; "058"; "112"; "097"; "114"; "097"; "109"; "115"; "058"; "115"; "099"; "105"; "109"; "058"; "097"; "112"; "105"; "058"; "000"]%byte : bytes),
    [IBlock (PF 15); ITr 81]);
   ([2]%Z, B "URN:ietf:params:scim:api:0:!",
    [IBlock (PEof 37); IEnd 175]);
   ([2]%Z, B "",
    [IEnd 44]);
   ([3]%Z, B "",
    [IEnd 83]);
   ([1]%Z, B "U",
    [IEnd 2]);
   ([2]%Z, B "U",
    [IEnd 45]);
   ([3]%Z, B "U",
    [IEnd 84]);
   ([1]%Z, B "UR",
    [IEnd 3]);
   ([2]%Z, B "UR",
    [IEnd 46]);
   ([3]%Z, B "UR",
    [IEnd 85]);
   ([1]%Z, B "URN",
    [IEnd 4]);
   ([2]%Z, B "URN",
    [IEnd 47]);
   ([3]%Z, B "URN",
    [IEnd 86]);
   ([1]%Z, B "URN:U",
    [IEnd 41]);
   ([2]%Z, B "URN:i",
    [IEnd 49]);
   ([3]%Z, B "URN:0",
    [IEnd 88]);
   ([3]%Z, B "URN:U",
    [IEnd 167]);
   ([1]%Z, B "URN:0-",
    [IEnd 7]);
   ([1]%Z, B "URN:UR",
    [IEnd 42]);
   ([2]%Z, B "URN:ie",
    [IEnd 50]);
   ([3]%Z, B "URN:0-",
    [IEnd 89]);
   ([3]%Z, B "URN:00",
    [IEnd 166]);
   ([3]%Z, B "URN:UR",
    [IEnd 168]);
   ([1]%Z, B "URN:0--",
    [IEnd 8]);
   ([1]%Z, B "URN:0:!",
    [IEnd 172]);
   ([2]%Z, B "URN:iet",
    [IEnd 51]);
   ([3]%Z, B "URN:0--",
    [IEnd 90]);
   ([3]%Z, B "URN:0-0",
    [IEnd 165]);
   ([3]%Z, B "URN:URN",
    [IEnd 169]);
   ([1]%Z, B "URN:0---",
    [IEnd 9]);
   ([1]%Z, B "URN:0:%0",
    [IEnd 40]);
   ([1]%Z, (["085"; "082"; "078"; "058"; "085"; "045"; "000"; "058"]%byte : bytes),
    [ITake (PF 1) [1; 1; 0]%nat true]);
   ([2]%Z, B "URN:ietf",
    [IEnd 52]);
   ([3]%Z, B "URN:0---",
    [IEnd 91]);
   ([3]%Z, B "URN:0--0",
    [IEnd 164]);
   ([3]%Z, B "URN:00:!",
    [IEnd 177]);
   ([3]%Z, B "URN:00:%",
    [IEnd 123]);
   ([3]%Z, B "URN:URN-",
    [IEnd 170]);
   ([1]%Z, B "URN:0----",
    [IEnd 10]);
   ([2]%Z, B "URN:ietf:",
    [IEnd 53]);
   ([3]%Z, B "URN:0----",
    [IEnd 92]);
   ([3]%Z, B "URN:0---0",
    [IEnd 163]);
   ([3]%Z, B "URN:00:!?",
    [IEnd 125]);
   ([1]%Z, B "URN:0-----",
    [IEnd 11]);
   ([2]%Z, B "URN:ietf:p",
    [IEnd 54]);
   ([3]%Z, B "URN:0-----",
    [IEnd 93]);
   ([3]%Z, B "URN:0----0",
    [IEnd 162]);
   ([3]%Z, B "URN:00:!#%",
    [IEnd 121]);
   ([1]%Z, B "URN:0------",
    [IEnd 12]);
   ([2]%Z, B "URN:ietf:pa",
    [IEnd 55]);
   ([3]%Z, B "URN:0------",
    [IEnd 94]);
   ([3]%Z, B "URN:0-----0",
    [IEnd 161]);
   ([3]%Z, B "URN:00:!?+!",
    [IEnd 182]);
   ([3]%Z, B "URN:00:!?+?",
    [IEnd 133]);
   ([3]%Z, B "URN:00:!?=!",
    [IEnd 187]);
   ([3]%Z, B "URN:00:!?=?",
    [IEnd 136]);
   ([1]%Z, B "URN:0-------",
    [IEnd 13]);
   ([2]%Z, B "URN:ietf:par",
    [IEnd 56]);
   ([3]%Z, B "URN:0-------",
    [IEnd 95]);
   ([3]%Z, B "URN:00:!#%00",
    [IEnd 180]);
   ([3]%Z, B "URN:00:!?+!?",
    [IEnd 184]);
   ([3]%Z, B "URN:00:!?+%0",
    [IEnd 128]);
   ([3]%Z, B "URN:00:!?=!?",
    [IEnd 189]);
   ([3]%Z, B "URN:00:!?=%0",
    [IEnd 130]);
   ([1]%Z, B "URN:0--------",
    [IEnd 14]);
   ([2]%Z, B "URN:ietf:para",
    [IEnd 57]);
   ([3]%Z, B "URN:0--------",
    [IEnd 96]);
   ([3]%Z, B "URN:0-------0",
    [IEnd 159]);
   ([3]%Z, B "URN:00:!?+!?+",
    [IEnd 185]);
   ([3]%Z, B "URN:00:!?+!?=",
    [IEnd 186]);
   ([3]%Z, B "URN:00:!?+?+%",
    [ITr 234]);
   ([3]%Z, B "URN:00:!?+?+?",
    [ITr 247]);
   ([3]%Z, B "URN:00:!?=!?=",
    [IEnd 190]);
   ([3]%Z, B "URN:00:!?=?=%",
    [ITr 245]);
   ([3]%Z, B "URN:00:!?=?=?",
    [ITr 248]);
   ([1]%Z, B "URN:0---------",
    [IEnd 15]);
   ([2]%Z, B "URN:ietf:param",
    [IEnd 58]);
   ([3]%Z, B "URN:0---------",
    [IEnd 97]);
   ([3]%Z, B "URN:0--------0",
    [IEnd 158]);
   ([3]%Z, B "URN:00:!?+!?+?",
    [ITr 235]);
   ([3]%Z, B "URN:00:!?+!?=%",
    [IEnd 131]);
   ([3]%Z, B "URN:00:!?=!?=?",
    [ITr 246]);
   ([1]%Z, B "URN:0----------",
    [IEnd 16]);
   ([2]%Z, B "URN:ietf:params",
    [IEnd 59]);
   ([3]%Z, B "URN:0----------",
    [IEnd 98]);
   ([3]%Z, B "URN:0---------0",
    [IEnd 157]);
   ([1]%Z, B "URN:0-----------",
    [IEnd 17]);
   ([2]%Z, B "URN:ietf:params:",
    [IEnd 60]);
   ([3]%Z, B "URN:0-----------",
    [IEnd 99]);
   ([3]%Z, B "URN:0----------0",
    [IEnd 156]);
   ([1]%Z, B "URN:0------------",
    [IEnd 18]);
   ([2]%Z, B "URN:ietf:params:s",
    [IEnd 61]);
   ([3]%Z, B "URN:0------------",
    [IEnd 100]);
   ([1]%Z, B "URN:0-------------",
    [IEnd 19]);
   ([2]%Z, B "URN:ietf:params:sc",
    [IEnd 62]);
   ([3]%Z, B "URN:0-------------",
    [IEnd 101]);
   ([3]%Z, B "URN:0------------0",
    [IEnd 154]);
   ([1]%Z, B "URN:0--------------",
    [IEnd 20]);
   ([2]%Z, B "URN:ietf:params:sci",
    [IEnd 63]);
   ([3]%Z, B "URN:0--------------",
    [IEnd 102]);
   ([3]%Z, B "URN:0-------------0",
    [IEnd 153]);
   ([1]%Z, B "URN:0---------------",
    [IEnd 21]);
   ([2]%Z, B "URN:ietf:params:scim",
    [IEnd 64]);
   ([3]%Z, B "URN:0---------------",
    [IEnd 103]);
   ([3]%Z, B "URN:0--------------0",
    [IEnd 152]);
   ([1]%Z, B "URN:0----------------",
    [IEnd 22]);
   ([3]%Z, B "URN:0----------------",
    [IEnd 104]);
   ([3]%Z, B "URN:0---------------0",
    [IEnd 151]);
   ([1]%Z, B "URN:0-----------------",
    [IEnd 23]);
   ([2]%Z, B "URN:ietf:params:scim:a",
    [IEnd 66]);
   ([2]%Z, B "URN:ietf:params:scim:p",
    [IEnd 73]);
   ([2]%Z, B "URN:ietf:params:scim:s",
    [IEnd 77]);
   ([3]%Z, B "URN:0-----------------",
    [IEnd 105]);
   ([3]%Z, B "URN:0----------------0",
    [IEnd 150]);
   ([1]%Z, B "URN:0------------------",
    [IEnd 24]);
   ([2]%Z, B "URN:ietf:params:scim:ap",
    [IEnd 67]);
   ([2]%Z, B "URN:ietf:params:scim:pa",
    [IEnd 74]);
   ([2]%Z, B "URN:ietf:params:scim:sc",
    [IEnd 78]);
   ([3]%Z, B "URN:0------------------",
    [IEnd 106]);
   ([3]%Z, B "URN:0-----------------0",
    [IEnd 149]);
   ([1]%Z, B "URN:0-------------------",
    [IEnd 25]);
   ([2]%Z, B "URN:ietf:params:scim:api",
    [IEnd 68]);
   ([2]%Z, B "URN:ietf:params:scim:par",
    [IEnd 75]);
   ([2]%Z, B "URN:ietf:params:scim:sch",
    [IEnd 79]);
   ([3]%Z, B "URN:0-------------------",
    [IEnd 107]);
   ([3]%Z, B "URN:0------------------0",
    [IEnd 148]);
   ([1]%Z, B "URN:0--------------------",
    [IEnd 26]);
   ([2]%Z, B "URN:ietf:params:scim:para",
    [IEnd 76]);
   ([2]%Z, B "URN:ietf:params:scim:sche",
    [IEnd 80]);
   ([3]%Z, B "URN:0--------------------",
    [IEnd 108]);
   ([3]%Z, B "URN:0-------------------0",
    [IEnd 147]);
   ([1]%Z, B "URN:0---------------------",
    [IEnd 27]);
   ([2]%Z, B "URN:ietf:params:scim:schem",
    [IEnd 81]);
   ([3]%Z, B "URN:0---------------------",
    [IEnd 109]);
   ([1]%Z, B "URN:0----------------------",
    [IEnd 28]);
   ([2]%Z, B "URN:ietf:params:scim:schema",
    [IEnd 82]);
   ([3]%Z, B "URN:0----------------------",
    [IEnd 110]);
   ([3]%Z, B "URN:0---------------------0",
    [IEnd 145]);
   ([1]%Z, B "URN:0-----------------------",
    [IEnd 29]);
   ([3]%Z, B "URN:0-----------------------",
    [IEnd 111]);
   ([3]%Z, B "URN:0----------------------0",
    [IEnd 144]);
   ([1]%Z, B "URN:0------------------------",
    [IEnd 30]);
   ([2]%Z, B "URN:ietf:params:scim:api:0:%0",
    [IEnd 72]);
   ([3]%Z, B "URN:0------------------------",
    [IEnd 112]);
   ([3]%Z, B "URN:0-----------------------0",
    [IEnd 143]);
   ([1]%Z, B "URN:0-------------------------",
    [IEnd 31]);
   ([2]%Z, B "URN:ietf:params:scim:api:0:%00",
    [IEnd 176]);
   ([3]%Z, B "URN:0-------------------------",
    [IEnd 113]);
   ([3]%Z, B "URN:0------------------------0",
    [IEnd 142]);
   ([1]%Z, B "URN:0--------------------------",
    [IEnd 32]);
   ([3]%Z, B "URN:0--------------------------",
    [IEnd 114]);
   ([1]%Z, B "URN:0---------------------------",
    [IEnd 33]);
   ([3]%Z, B "URN:0---------------------------",
    [IEnd 115]);
   ([3]%Z, B "URN:0--------------------------0",
    [IEnd 140]);
   ([1]%Z, B "URN:0----------------------------",
    [IEnd 34]);
   ([3]%Z, B "URN:0----------------------------",
    [IEnd 116]);
   ([3]%Z, B "URN:0---------------------------0",
    [IEnd 139]);
   ([1]%Z, B "URN:0-----------------------------",
    [IEnd 35]);
   ([3]%Z, B "URN:0-----------------------------",
    [IEnd 117]);
   ([3]%Z, B "URN:0----------------------------0",
    [IEnd 138]);
   ([1]%Z, B "URN:0------------------------------",
    [IEnd 36]);
   ([3]%Z, B "URN:0------------------------------",
    [IEnd 118]);
   ([3]%Z, B "URN:0-----------------------------0",
    [IEnd 137]);
   ([1]%Z, B "URN:0-------------------------------",
    [IEnd 37]);
   ([3]%Z, B "URN:0------------------------------0",
    [IEnd 119]);
   ([1; 4]%Z, B "URN:0:%",
    [ITake (PEof 9) [0]%nat false]);
   ([1; 4]%Z, (["085"; "082"; "078"; "058"; "048"; "058"; "037"; "000"]%byte : bytes),
    [ITake (PF 8) [0]%nat false]);
   ([3; 4]%Z, (["085"; "082"; "078"; "058"; "048"; "048"; "058"; "033"; "035"; "037"; "000"]%byte : bytes),
    [ITake (PF 23) [0]%nat false]);
   ([3; 4]%Z, B "URN:00:!?+!?=%",
    [ITake (PEof 30) [0]%nat false]);
   ([3; 4]%Z, B "URN:00:!?+!?=%$",
    [ITake (PF 29) [0]%nat false]);
   ([3; 4]%Z, B "URN:00:!?+%",
    [ITake (PEof 28) [0]%nat false]);
   ([3; 4]%Z, (["085"; "082"; "078"; "058"; "048"; "048"; "058"; "033"; "063"; "043"; "037"; "010"]%byte : bytes),
    [ITake (PF 27) [0]%nat false]);
   ([3; 4]%Z, B "URN:00:!?=%",
    [ITake (PEof 29) [0]%nat false]);
   ([3; 4]%Z, B "URN:00:!?=%!",
    [ITake (PF 28) [0]%nat false]);
   ([3; 4]%Z, B "URN:00:%",
    [ITake (PEof 25) [0]%nat false]);
   ([3; 4]%Z, (["085"; "082"; "078"; "058"; "048"; "048"; "058"; "037"; "000"]%byte : bytes),
    [ITake (PF 24) [0]%nat false]);
   ([3; 4]%Z, B "URN:UR:!#%",
    [ITake (PEof 24) [0]%nat false])].
