(** The tables of the aerobench sources, indexed the natural way (one row per angle of attack or
    altitude), in thousandths, or in pounds for thrust. Nothing here is used by the model. *)

From Coq Require Import List ZArith.
Import ListNotations.
Local Open Scope Z_scope.

Definition tab_cx : list (list Z) :=
  [[-99; -48; -22; -40; -83];
   [-81; -38; -20; -38; -73];
   [-81; -40; -21; -39; -76];
   [-63; -21; -4; -25; -72];
   [-25; 16; 32; 6; -46];
   [44; 83; 94; 62; 12];
   [97; 127; 128; 87; 24];
   [113; 137; 130; 85; 25];
   [145; 162; 154; 100; 43];
   [167; 177; 161; 110; 53];
   [174; 179; 155; 104; 47];
   [166; 167; 138; 91; 40]].

Definition tab_cz : list Z :=
  [770; 241; -100; -415; -731; -1053; -1355; -1646; -1917; -2120; -2248; -2229].

Definition tab_cm : list (list Z) :=
  [[205; 81; -46; -174; -259];
   [168; 77; -20; -145; -202];
   [186; 107; -9; -121; -184];
   [196; 110; -5; -127; -193];
   [213; 110; -6; -129; -199];
   [251; 141; 10; -102; -150];
   [245; 127; 6; -97; -160];
   [238; 119; -1; -113; -167];
   [252; 133; 14; -87; -104];
   [231; 108; 0; -84; -76];
   [198; 81; -13; -69; -41];
   [192; 93; 32; -6; -5]].

Definition tab_cl : list (list Z) :=
  [[0; -1; -3; -1; 0; 7; 9];
   [0; -4; -9; -10; -10; -10; -11];
   [0; -8; -17; -20; -22; -23; -23];
   [0; -12; -24; -30; -34; -34; -37];
   [0; -16; -30; -39; -47; -49; -50];
   [0; -22; -41; -54; -60; -63; -68];
   [0; -22; -45; -57; -69; -81; -89];
   [0; -21; -40; -54; -67; -79; -88];
   [0; -15; -16; -23; -33; -60; -91];
   [0; -8; -2; -6; -36; -58; -76];
   [0; -13; -10; -14; -35; -62; -77];
   [0; -15; -19; -27; -35; -59; -76]].

Definition tab_cn : list (list Z) :=
  [[0; 18; 38; 56; 64; 74; 79];
   [0; 19; 42; 57; 77; 86; 90];
   [0; 18; 42; 59; 76; 93; 106];
   [0; 19; 42; 58; 74; 89; 106];
   [0; 19; 43; 58; 73; 80; 96];
   [0; 18; 39; 53; 57; 62; 80];
   [0; 13; 30; 32; 29; 49; 68];
   [0; 7; 17; 12; 7; 22; 30];
   [0; 4; 4; 2; 12; 28; 64];
   [0; -14; -35; -46; -34; -12; 15];
   [0; -17; -47; -71; -65; -2; 11];
   [0; -33; -57; -73; -41; -13; -1]].

Definition tab_dlda : list (list Z) :=
  [[-41; -41; -42; -40; -43; -44; -43];
   [-52; -53; -53; -52; -49; -48; -49];
   [-53; -53; -52; -51; -48; -48; -47];
   [-56; -53; -51; -52; -49; -47; -45];
   [-50; -50; -49; -48; -43; -42; -42];
   [-56; -51; -49; -48; -42; -41; -37];
   [-82; -66; -43; -42; -42; -20; -3];
   [-59; -43; -35; -37; -36; -28; -13];
   [-42; -38; -26; -31; -25; -13; -10];
   [-38; -27; -16; -26; -21; -14; -3];
   [-27; -23; -18; -17; -16; -11; -7];
   [-17; -16; -14; -12; -11; -10; -8]].

Definition tab_dldr : list (list Z) :=
  [[5; 7; 13; 18; 15; 21; 23];
   [17; 16; 13; 15; 14; 11; 10];
   [14; 14; 11; 15; 13; 10; 11];
   [10; 14; 12; 14; 13; 11; 11];
   [-5; 13; 11; 14; 12; 10; 11];
   [9; 9; 9; 14; 11; 9; 10];
   [19; 12; 8; 14; 11; 8; 8];
   [5; 5; 5; 15; 10; 10; 10];
   [0; 0; -2; 13; 8; 6; 6];
   [-5; 4; 5; 11; 8; 5; 14];
   [-11; 9; 3; 6; 7; 0; 20];
   [8; 7; 5; 1; 3; 1; 0]].

Definition tab_dnda : list (list Z) :=
  [[1; 2; -6; -11; -15; -24; -22];
   [-27; -14; -8; -11; -15; -10; 2];
   [-17; -16; -6; -10; -14; -4; -3];
   [-13; -16; -6; -9; -12; -2; -5];
   [-12; -14; -5; -8; -11; -1; -3];
   [-16; -19; -8; -6; -8; 3; -1];
   [1; -21; -5; 0; -2; 14; -9];
   [17; 2; 7; 4; 2; 6; -9];
   [11; 12; 4; 7; 6; -1; -1];
   [17; 16; 7; 10; 12; 4; 3];
   [8; 15; 6; 4; 11; 4; -2];
   [16; 11; 6; 10; 11; 6; 1]].

Definition tab_dndr : list (list Z) :=
  [[-18; -28; -37; -48; -43; -52; -62];
   [-52; -51; -41; -45; -44; -34; -34];
   [-52; -43; -38; -45; -41; -36; -27];
   [-52; -46; -40; -45; -41; -36; -28];
   [-54; -45; -40; -44; -40; -35; -27];
   [-49; -49; -38; -45; -38; -28; -27];
   [-59; -57; -37; -47; -34; -24; -23];
   [-51; -52; -30; -48; -35; -23; -23];
   [-30; -30; -27; -49; -35; -20; -19];
   [-37; -33; -24; -45; -29; -16; -9];
   [-26; -30; -19; -33; -22; -10; -25];
   [-13; -8; -13; -16; -9; -14; -10]].

Definition tab_dampp : list (list Z) :=
  [[-267; 882; -108; -8800; -126; -360; -7210; -380; 61];
   [-110; 852; -108; -25800; -26; -359; -540; -363; 52];
   [308; 876; -188; -28900; 63; -443; -5230; -378; 52];
   [1340; 958; 110; -31400; 113; -420; -5260; -386; -12];
   [2080; 962; 258; -31200; 208; -383; -6110; -370; -13];
   [2910; 974; 226; -30700; 230; -375; -6640; -453; -24];
   [2760; 819; 344; -27700; 319; -329; -5690; -550; 50];
   [2050; 483; 362; -28200; 437; -294; -6000; -582; 150];
   [1500; 590; 611; -29000; 680; -230; -6200; -595; 130];
   [1490; 1210; 529; -29800; 100; -210; -6400; -637; 158];
   [1830; -493; 298; -38300; 447; -120; -6600; -1020; 240];
   [1210; -1040; -2270; -35300; -330; -100; -6000; -840; 150]].

Definition idle_thrust : list (list Z) :=
  [[1060; 635; 60; -1020; -2700; -3600];
   [670; 425; 25; -170; -1900; -1400];
   [880; 690; 345; -300; -1300; -595];
   [1140; 1010; 755; 350; -247; -342];
   [1500; 1330; 1130; 910; 600; -200];
   [1860; 1700; 1525; 1360; 1100; 700]].

Definition military_thrust : list (list Z) :=
  [[12680; 12680; 12610; 12640; 12390; 11680];
   [9150; 9150; 9312; 9839; 10176; 9848];
   [6200; 6313; 6610; 7090; 7750; 8050];
   [3950; 4040; 4290; 4660; 5320; 6100];
   [2450; 2470; 2600; 2840; 3250; 3800];
   [1400; 1400; 1560; 1660; 1930; 2310]].

Definition maximum_thrust : list (list Z) :=
  [[20000; 21420; 22700; 24240; 26070; 28886];
   [15000; 15700; 16860; 18910; 21075; 23319];
   [10800; 11225; 12250; 13760; 15975; 18300];
   [7000; 7323; 8154; 9285; 11115; 13484];
   [4000; 4435; 5000; 5700; 6860; 8642];
   [2500; 2600; 2835; 3215; 3950; 5057]].
