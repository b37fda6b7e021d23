(** Aerodynamic and engine tables of safe_autonomy_dynamics/external/aerobench/lowlevel,
    copied entry by entry as decimal fractions. The Python arrays are transposed on
    construction; here the rows are kept as written, so [a\[k, m\]] is element [k] of
    row [m]. *)
From Coq Require Import List ZArith.
From Verif Require Import PyBase Num.
Import ListNotations.
Local Open Scope Z_scope.

Local Notation "n // d" := (n%Z, d%positive) (at level 40).

Definition table : Type := list (list (Z * positive)).

(** cx.py 25-34 *)
Definition cx_table : table :=
  [[-99 // 1000; -81 // 1000; -81 // 1000; -63 // 1000; -25 // 1000; 44 // 1000; 97 // 1000;
    113 // 1000; 145 // 1000; 167 // 1000; 174 // 1000; 166 // 1000];
   [-48 // 1000; -38 // 1000; -40 // 1000; -21 // 1000; 16 // 1000; 83 // 1000; 127 // 1000;
    137 // 1000; 162 // 1000; 177 // 1000; 179 // 1000; 167 // 1000];
   [-22 // 1000; -20 // 1000; -21 // 1000; -4 // 1000; 32 // 1000; 94 // 1000; 128 // 1000;
    130 // 1000; 154 // 1000; 161 // 1000; 155 // 1000; 138 // 1000];
   [-40 // 1000; -38 // 1000; -39 // 1000; -25 // 1000; 6 // 1000; 62 // 1000; 87 // 1000;
    85 // 1000; 100 // 1000; 110 // 1000; 104 // 1000; 91 // 1000];
   [-83 // 1000; -73 // 1000; -76 // 1000; -72 // 1000; -46 // 1000; 12 // 1000; 24 // 1000;
    25 // 1000; 43 // 1000; 53 // 1000; 47 // 1000; 40 // 1000]].

(** cz.py 25-25 *)
Definition cz_table : list (Z * positive) :=
  [770 // 1000; 241 // 1000; -100 // 1000; -415 // 1000; -731 // 1000; -1053 // 1000;
    -1355 // 1000; -1646 // 1000; -1917 // 1000; -2120 // 1000; -2248 // 1000; -2229 // 1000].

(** cm.py 24-33 *)
Definition cm_table : table :=
  [[205 // 1000; 168 // 1000; 186 // 1000; 196 // 1000; 213 // 1000; 251 // 1000; 245 // 1000;
    238 // 1000; 252 // 1000; 231 // 1000; 198 // 1000; 192 // 1000];
   [81 // 1000; 77 // 1000; 107 // 1000; 110 // 1000; 110 // 1000; 141 // 1000; 127 // 1000;
    119 // 1000; 133 // 1000; 108 // 1000; 81 // 1000; 93 // 1000];
   [-46 // 1000; -20 // 1000; -9 // 1000; -5 // 1000; -6 // 1000; 10 // 1000; 6 // 1000;
    -1 // 1000; 14 // 1000; 0 // 1000; -13 // 1000; 32 // 1000];
   [-174 // 1000; -145 // 1000; -121 // 1000; -127 // 1000; -129 // 1000; -102 // 1000;
    -97 // 1000; -113 // 1000; -87 // 1000; -84 // 1000; -69 // 1000; -6 // 1000];
   [-259 // 1000; -202 // 1000; -184 // 1000; -193 // 1000; -199 // 1000; -150 // 1000;
    -160 // 1000; -167 // 1000; -104 // 1000; -76 // 1000; -41 // 1000; -5 // 1000]].

(** cl.py 25-35 *)
Definition cl_table : table :=
  [[0 // 1; 0 // 1; 0 // 1; 0 // 1; 0 // 1; 0 // 1; 0 // 1; 0 // 1; 0 // 1; 0 // 1; 0 // 1;
    0 // 1];
   [-1 // 1000; -4 // 1000; -8 // 1000; -12 // 1000; -16 // 1000; -22 // 1000; -22 // 1000;
    -21 // 1000; -15 // 1000; -8 // 1000; -13 // 1000; -15 // 1000];
   [-3 // 1000; -9 // 1000; -17 // 1000; -24 // 1000; -30 // 1000; -41 // 1000; -45 // 1000;
    -40 // 1000; -16 // 1000; -2 // 1000; -10 // 1000; -19 // 1000];
   [-1 // 1000; -10 // 1000; -20 // 1000; -30 // 1000; -39 // 1000; -54 // 1000; -57 // 1000;
    -54 // 1000; -23 // 1000; -6 // 1000; -14 // 1000; -27 // 1000];
   [0 // 1000; -10 // 1000; -22 // 1000; -34 // 1000; -47 // 1000; -60 // 1000; -69 // 1000;
    -67 // 1000; -33 // 1000; -36 // 1000; -35 // 1000; -35 // 1000];
   [7 // 1000; -10 // 1000; -23 // 1000; -34 // 1000; -49 // 1000; -63 // 1000; -81 // 1000;
    -79 // 1000; -60 // 1000; -58 // 1000; -62 // 1000; -59 // 1000];
   [9 // 1000; -11 // 1000; -23 // 1000; -37 // 1000; -50 // 1000; -68 // 1000; -89 // 1000;
    -88 // 1000; -91 // 1000; -76 // 1000; -77 // 1000; -76 // 1000]].

(** cn.py 25-35 *)
Definition cn_table : table :=
  [[0 // 1; 0 // 1; 0 // 1; 0 // 1; 0 // 1; 0 // 1; 0 // 1; 0 // 1; 0 // 1; 0 // 1; 0 // 1;
    0 // 1];
   [18 // 1000; 19 // 1000; 18 // 1000; 19 // 1000; 19 // 1000; 18 // 1000; 13 // 1000;
    7 // 1000; 4 // 1000; -14 // 1000; -17 // 1000; -33 // 1000];
   [38 // 1000; 42 // 1000; 42 // 1000; 42 // 1000; 43 // 1000; 39 // 1000; 30 // 1000;
    17 // 1000; 4 // 1000; -35 // 1000; -47 // 1000; -57 // 1000];
   [56 // 1000; 57 // 1000; 59 // 1000; 58 // 1000; 58 // 1000; 53 // 1000; 32 // 1000;
    12 // 1000; 2 // 1000; -46 // 1000; -71 // 1000; -73 // 1000];
   [64 // 1000; 77 // 1000; 76 // 1000; 74 // 1000; 73 // 1000; 57 // 1000; 29 // 1000;
    7 // 1000; 12 // 1000; -34 // 1000; -65 // 1000; -41 // 1000];
   [74 // 1000; 86 // 1000; 93 // 1000; 89 // 1000; 80 // 1000; 62 // 1000; 49 // 1000;
    22 // 1000; 28 // 1000; -12 // 1000; -2 // 1000; -13 // 1000];
   [79 // 1000; 90 // 1000; 106 // 1000; 106 // 1000; 96 // 1000; 80 // 1000; 68 // 1000;
    30 // 1000; 64 // 1000; 15 // 1000; 11 // 1000; -1 // 1000]].

(** dlda.py 25-36 *)
Definition dlda_table : table :=
  [[-41 // 1000; -52 // 1000; -53 // 1000; -56 // 1000; -50 // 1000; -56 // 1000; -82 // 1000;
    -59 // 1000; -42 // 1000; -38 // 1000; -27 // 1000; -17 // 1000];
   [-41 // 1000; -53 // 1000; -53 // 1000; -53 // 1000; -50 // 1000; -51 // 1000; -66 // 1000;
    -43 // 1000; -38 // 1000; -27 // 1000; -23 // 1000; -16 // 1000];
   [-42 // 1000; -53 // 1000; -52 // 1000; -51 // 1000; -49 // 1000; -49 // 1000; -43 // 1000;
    -35 // 1000; -26 // 1000; -16 // 1000; -18 // 1000; -14 // 1000];
   [-40 // 1000; -52 // 1000; -51 // 1000; -52 // 1000; -48 // 1000; -48 // 1000; -42 // 1000;
    -37 // 1000; -31 // 1000; -26 // 1000; -17 // 1000; -12 // 1000];
   [-43 // 1000; -49 // 1000; -48 // 1000; -49 // 1000; -43 // 1000; -42 // 1000; -42 // 1000;
    -36 // 1000; -25 // 1000; -21 // 1000; -16 // 1000; -11 // 1000];
   [-44 // 1000; -48 // 1000; -48 // 1000; -47 // 1000; -42 // 1000; -41 // 1000; -20 // 1000;
    -28 // 1000; -13 // 1000; -14 // 1000; -11 // 1000; -10 // 1000];
   [-43 // 1000; -49 // 1000; -47 // 1000; -45 // 1000; -42 // 1000; -37 // 1000; -3 // 1000;
    -13 // 1000; -10 // 1000; -3 // 1000; -7 // 1000; -8 // 1000]].

(** dldr.py 25-36 *)
Definition dldr_table : table :=
  [[5 // 1000; 17 // 1000; 14 // 1000; 10 // 1000; -5 // 1000; 9 // 1000; 19 // 1000;
    5 // 1000; 0 // 1000; -5 // 1000; -11 // 1000; 8 // 1000];
   [7 // 1000; 16 // 1000; 14 // 1000; 14 // 1000; 13 // 1000; 9 // 1000; 12 // 1000;
    5 // 1000; 0 // 1000; 4 // 1000; 9 // 1000; 7 // 1000];
   [13 // 1000; 13 // 1000; 11 // 1000; 12 // 1000; 11 // 1000; 9 // 1000; 8 // 1000;
    5 // 1000; -2 // 1000; 5 // 1000; 3 // 1000; 5 // 1000];
   [18 // 1000; 15 // 1000; 15 // 1000; 14 // 1000; 14 // 1000; 14 // 1000; 14 // 1000;
    15 // 1000; 13 // 1000; 11 // 1000; 6 // 1000; 1 // 1000];
   [15 // 1000; 14 // 1000; 13 // 1000; 13 // 1000; 12 // 1000; 11 // 1000; 11 // 1000;
    10 // 1000; 8 // 1000; 8 // 1000; 7 // 1000; 3 // 1000];
   [21 // 1000; 11 // 1000; 10 // 1000; 11 // 1000; 10 // 1000; 9 // 1000; 8 // 1000;
    10 // 1000; 6 // 1000; 5 // 1000; 0 // 1000; 1 // 1000];
   [23 // 1000; 10 // 1000; 11 // 1000; 11 // 1000; 11 // 1000; 10 // 1000; 8 // 1000;
    10 // 1000; 6 // 1000; 14 // 1000; 20 // 1000; 0 // 1000]].

(** dnda.py 25-36 *)
Definition dnda_table : table :=
  [[1 // 1000; -27 // 1000; -17 // 1000; -13 // 1000; -12 // 1000; -16 // 1000; 1 // 1000;
    17 // 1000; 11 // 1000; 17 // 1000; 8 // 1000; 16 // 1000];
   [2 // 1000; -14 // 1000; -16 // 1000; -16 // 1000; -14 // 1000; -19 // 1000; -21 // 1000;
    2 // 1000; 12 // 1000; 16 // 1000; 15 // 1000; 11 // 1000];
   [-6 // 1000; -8 // 1000; -6 // 1000; -6 // 1000; -5 // 1000; -8 // 1000; -5 // 1000;
    7 // 1000; 4 // 1000; 7 // 1000; 6 // 1000; 6 // 1000];
   [-11 // 1000; -11 // 1000; -10 // 1000; -9 // 1000; -8 // 1000; -6 // 1000; 0 // 1000;
    4 // 1000; 7 // 1000; 10 // 1000; 4 // 1000; 10 // 1000];
   [-15 // 1000; -15 // 1000; -14 // 1000; -12 // 1000; -11 // 1000; -8 // 1000; -2 // 1000;
    2 // 1000; 6 // 1000; 12 // 1000; 11 // 1000; 11 // 1000];
   [-24 // 1000; -10 // 1000; -4 // 1000; -2 // 1000; -1 // 1000; 3 // 1000; 14 // 1000;
    6 // 1000; -1 // 1000; 4 // 1000; 4 // 1000; 6 // 1000];
   [-22 // 1000; 2 // 1000; -3 // 1000; -5 // 1000; -3 // 1000; -1 // 1000; -9 // 1000;
    -9 // 1000; -1 // 1000; 3 // 1000; -2 // 1000; 1 // 1000]].

(** dndr.py 25-36 *)
Definition dndr_table : table :=
  [[-18 // 1000; -52 // 1000; -52 // 1000; -52 // 1000; -54 // 1000; -49 // 1000; -59 // 1000;
    -51 // 1000; -30 // 1000; -37 // 1000; -26 // 1000; -13 // 1000];
   [-28 // 1000; -51 // 1000; -43 // 1000; -46 // 1000; -45 // 1000; -49 // 1000; -57 // 1000;
    -52 // 1000; -30 // 1000; -33 // 1000; -30 // 1000; -8 // 1000];
   [-37 // 1000; -41 // 1000; -38 // 1000; -40 // 1000; -40 // 1000; -38 // 1000; -37 // 1000;
    -30 // 1000; -27 // 1000; -24 // 1000; -19 // 1000; -13 // 1000];
   [-48 // 1000; -45 // 1000; -45 // 1000; -45 // 1000; -44 // 1000; -45 // 1000; -47 // 1000;
    -48 // 1000; -49 // 1000; -45 // 1000; -33 // 1000; -16 // 1000];
   [-43 // 1000; -44 // 1000; -41 // 1000; -41 // 1000; -40 // 1000; -38 // 1000; -34 // 1000;
    -35 // 1000; -35 // 1000; -29 // 1000; -22 // 1000; -9 // 1000];
   [-52 // 1000; -34 // 1000; -36 // 1000; -36 // 1000; -35 // 1000; -28 // 1000; -24 // 1000;
    -23 // 1000; -20 // 1000; -16 // 1000; -10 // 1000; -14 // 1000];
   [-62 // 1000; -34 // 1000; -27 // 1000; -28 // 1000; -27 // 1000; -27 // 1000; -23 // 1000;
    -23 // 1000; -19 // 1000; -9 // 1000; -25 // 1000; -10 // 1000]].

(** dampp.py 25-38 *)
Definition dampp_table : table :=
  [[-267 // 1000; -110 // 1000; 308 // 1000; 134 // 100; 208 // 100; 291 // 100; 276 // 100;
    205 // 100; 150 // 100; 149 // 100; 183 // 100; 121 // 100];
   [882 // 1000; 852 // 1000; 876 // 1000; 958 // 1000; 962 // 1000; 974 // 1000; 819 // 1000;
    483 // 1000; 590 // 1000; 121 // 100; -493 // 1000; -104 // 100];
   [-108 // 1000; -108 // 1000; -188 // 1000; 110 // 1000; 258 // 1000; 226 // 1000;
    344 // 1000; 362 // 1000; 611 // 1000; 529 // 1000; 298 // 1000; -227 // 100];
   [-880 // 100; -258 // 10; -289 // 10; -314 // 10; -312 // 10; -307 // 10; -277 // 10;
    -282 // 10; -290 // 10; -298 // 10; -383 // 10; -353 // 10];
   [-126 // 1000; -26 // 1000; 63 // 1000; 113 // 1000; 208 // 1000; 230 // 1000; 319 // 1000;
    437 // 1000; 680 // 1000; 100 // 1000; 447 // 1000; -330 // 1000];
   [-360 // 1000; -359 // 1000; -443 // 1000; -420 // 1000; -383 // 1000; -375 // 1000;
    -329 // 1000; -294 // 1000; -230 // 1000; -210 // 1000; -120 // 1000; -100 // 1000];
   [-721 // 100; -540 // 1000; -523 // 100; -526 // 100; -611 // 100; -664 // 100; -569 // 100;
    -600 // 100; -620 // 100; -640 // 100; -660 // 100; -600 // 100];
   [-380 // 1000; -363 // 1000; -378 // 1000; -386 // 1000; -370 // 1000; -453 // 1000;
    -550 // 1000; -582 // 1000; -595 // 1000; -637 // 1000; -102 // 100; -840 // 1000];
   [61 // 1000; 52 // 1000; 52 // 1000; -12 // 1000; -13 // 1000; -24 // 1000; 50 // 1000;
    150 // 1000; 130 // 1000; 158 // 1000; 240 // 1000; 150 // 1000]].

(** thrust.py 25-31 *)
Definition thrust_a : table :=
  [[1060 // 1; 670 // 1; 880 // 1; 1140 // 1; 1500 // 1; 1860 // 1];
   [635 // 1; 425 // 1; 690 // 1; 1010 // 1; 1330 // 1; 1700 // 1];
   [60 // 1; 25 // 1; 345 // 1; 755 // 1; 1130 // 1; 1525 // 1];
   [-1020 // 1; -170 // 1; -300 // 1; 350 // 1; 910 // 1; 1360 // 1];
   [-2700 // 1; -1900 // 1; -1300 // 1; -247 // 1; 600 // 1; 1100 // 1];
   [-3600 // 1; -1400 // 1; -595 // 1; -342 // 1; -200 // 1; 700 // 1]].

(** thrust.py 33-39 *)
Definition thrust_b : table :=
  [[12680 // 1; 9150 // 1; 6200 // 1; 3950 // 1; 2450 // 1; 1400 // 1];
   [12680 // 1; 9150 // 1; 6313 // 1; 4040 // 1; 2470 // 1; 1400 // 1];
   [12610 // 1; 9312 // 1; 6610 // 1; 4290 // 1; 2600 // 1; 1560 // 1];
   [12640 // 1; 9839 // 1; 7090 // 1; 4660 // 1; 2840 // 1; 1660 // 1];
   [12390 // 1; 10176 // 1; 7750 // 1; 5320 // 1; 3250 // 1; 1930 // 1];
   [11680 // 1; 9848 // 1; 8050 // 1; 6100 // 1; 3800 // 1; 2310 // 1]].

(** thrust.py 41-47 *)
Definition thrust_c : table :=
  [[20000 // 1; 15000 // 1; 10800 // 1; 7000 // 1; 4000 // 1; 2500 // 1];
   [21420 // 1; 15700 // 1; 11225 // 1; 7323 // 1; 4435 // 1; 2600 // 1];
   [22700 // 1; 16860 // 1; 12250 // 1; 8154 // 1; 5000 // 1; 2835 // 1];
   [24240 // 1; 18910 // 1; 13760 // 1; 9285 // 1; 5700 // 1; 3215 // 1];
   [26070 // 1; 21075 // 1; 15975 // 1; 11115 // 1; 6860 // 1; 3950 // 1];
   [28886 // 1; 23319 // 1; 18300 // 1; 13484 // 1; 8642 // 1; 5057 // 1]].
