(** [char::is_uppercase] and [char::is_numeric] of std (nothing here comes from
    /repo): used only by the storyboard trigger type reader
    (events/storyboard/types.rs:44).

    The tables are those of Unicode 14.0.0: [Lu] plus [Other_Uppercase], and
    [Nd]/[Nl]/[No].  A std built on another Unicode version differs on code points
    assigned in between; that is part of the trusted base.  An entry [(lo, hi, step)]
    stands for [lo, lo + step, .., hi]; ASCII is handled apart. *)
From Coq Require Import List NArith Bool.
From Verif Require Import Str.
Import ListNotations.
Local Open Scope N_scope.

Definition upper_ranges : list (N * N * N) :=
  [(192,214,1); (216,222,1); (256,310,2); (313,327,2); (330,376,2); (377,381,2); 
   (385,386,1); (388,390,2); (391,393,2); (394,395,1); (398,401,1); (403,404,1); 
   (406,408,1); (412,413,1); (415,416,1); (418,422,2); (423,425,2); (428,430,2); 
   (431,433,2); (434,435,1); (437,439,2); (440,440,1); (444,444,1); (452,452,1); 
   (455,455,1); (458,458,1); (461,475,2); (478,494,2); (497,497,1); (500,502,2); 
   (503,504,1); (506,562,2); (570,571,1); (573,574,1); (577,579,2); (580,582,1); 
   (584,590,2); (880,882,2); (886,886,1); (895,895,1); (902,904,2); (905,906,1); 
   (908,910,2); (911,913,2); (914,929,1); (931,939,1); (975,975,1); (978,980,1); 
   (984,1006,2); (1012,1012,1); (1015,1017,2); (1018,1018,1); (1021,1071,1); 
   (1120,1152,2); (1162,1216,2); (1217,1229,2); (1232,1326,2); (1329,1366,1); 
   (4256,4293,1); (4295,4295,1); (4301,4301,1); (5024,5109,1); (7312,7354,1); 
   (7357,7359,1); (7680,7828,2); (7838,7934,2); (7944,7951,1); (7960,7965,1); 
   (7976,7983,1); (7992,7999,1); (8008,8013,1); (8025,8031,2); (8040,8047,1); 
   (8120,8123,1); (8136,8139,1); (8152,8155,1); (8168,8172,1); (8184,8187,1); 
   (8450,8450,1); (8455,8455,1); (8459,8461,1); (8464,8466,1); (8469,8469,1); 
   (8473,8477,1); (8484,8490,2); (8491,8493,1); (8496,8499,1); (8510,8511,1); 
   (8517,8517,1); (8544,8559,1); (8579,8579,1); (9398,9423,1); (11264,11311,1); 
   (11360,11362,2); (11363,11364,1); (11367,11373,2); (11374,11376,1); (11378,11378,1); 
   (11381,11381,1); (11390,11392,1); (11394,11490,2); (11499,11501,2); (11506,11506,1); 
   (42560,42604,2); (42624,42650,2); (42786,42798,2); (42802,42862,2); (42873,42877,2); 
   (42878,42886,2); (42891,42893,2); (42896,42898,2); (42902,42922,2); (42923,42926,1); 
   (42928,42932,1); (42934,42948,2); (42949,42951,1); (42953,42953,1); (42960,42960,1); 
   (42966,42968,2); (42997,42997,1); (65313,65338,1); (66560,66599,1); (66736,66771,1); 
   (66928,66938,1); (66940,66954,1); (66956,66962,1); (66964,66965,1); (68736,68786,1); 
   (71840,71871,1); (93760,93791,1); (119808,119833,1); (119860,119885,1); 
   (119912,119937,1); (119964,119966,2); (119967,119967,1); (119970,119970,1); 
   (119973,119974,1); (119977,119980,1); (119982,119989,1); (120016,120041,1); 
   (120068,120069,1); (120071,120074,1); (120077,120084,1); (120086,120092,1); 
   (120120,120121,1); (120123,120126,1); (120128,120132,1); (120134,120134,1); 
   (120138,120144,1); (120172,120197,1); (120224,120249,1); (120276,120301,1); 
   (120328,120353,1); (120380,120405,1); (120432,120457,1); (120488,120512,1); 
   (120546,120570,1); (120604,120628,1); (120662,120686,1); (120720,120744,1); 
   (120778,120778,1); (125184,125217,1); (127280,127305,1); (127312,127337,1); 
   (127344,127369,1)].

Definition numeric_ranges : list (N * N * N) :=
  [(178,179,1); (185,185,1); (188,190,1); (1632,1641,1); (1776,1785,1); (1984,1993,1); 
   (2406,2415,1); (2534,2543,1); (2548,2553,1); (2662,2671,1); (2790,2799,1); 
   (2918,2927,1); (2930,2935,1); (3046,3058,1); (3174,3183,1); (3192,3198,1); 
   (3302,3311,1); (3416,3422,1); (3430,3448,1); (3558,3567,1); (3664,3673,1); 
   (3792,3801,1); (3872,3891,1); (4160,4169,1); (4240,4249,1); (4969,4988,1); 
   (5870,5872,1); (6112,6121,1); (6128,6137,1); (6160,6169,1); (6470,6479,1); 
   (6608,6618,1); (6784,6793,1); (6800,6809,1); (6992,7001,1); (7088,7097,1); 
   (7232,7241,1); (7248,7257,1); (8304,8304,1); (8308,8313,1); (8320,8329,1); 
   (8528,8578,1); (8581,8585,1); (9312,9371,1); (9450,9471,1); (10102,10131,1); 
   (11517,11517,1); (12295,12295,1); (12321,12329,1); (12344,12346,1); (12690,12693,1); 
   (12832,12841,1); (12872,12879,1); (12881,12895,1); (12928,12937,1); (12977,12991,1); 
   (42528,42537,1); (42726,42735,1); (43056,43061,1); (43216,43225,1); (43264,43273,1); 
   (43472,43481,1); (43504,43513,1); (43600,43609,1); (44016,44025,1); (65296,65305,1); 
   (65799,65843,1); (65856,65912,1); (65930,65931,1); (66273,66299,1); (66336,66339,1); 
   (66369,66369,1); (66378,66378,1); (66513,66517,1); (66720,66729,1); (67672,67679,1); 
   (67705,67711,1); (67751,67759,1); (67835,67839,1); (67862,67867,1); (68028,68029,1); 
   (68032,68047,1); (68050,68095,1); (68160,68168,1); (68221,68222,1); (68253,68255,1); 
   (68331,68335,1); (68440,68447,1); (68472,68479,1); (68521,68527,1); (68858,68863,1); 
   (68912,68921,1); (69216,69246,1); (69405,69414,1); (69457,69460,1); (69573,69579,1); 
   (69714,69743,1); (69872,69881,1); (69942,69951,1); (70096,70105,1); (70113,70132,1); 
   (70384,70393,1); (70736,70745,1); (70864,70873,1); (71248,71257,1); (71360,71369,1); 
   (71472,71483,1); (71904,71922,1); (72016,72025,1); (72784,72812,1); (73040,73049,1); 
   (73120,73129,1); (73664,73684,1); (74752,74862,1); (92768,92777,1); (92864,92873,1); 
   (93008,93017,1); (93019,93025,1); (93824,93846,1); (119520,119539,1); 
   (119648,119672,1); (120782,120831,1); (123200,123209,1); (123632,123641,1); 
   (125127,125135,1); (125264,125273,1); (126065,126123,1); (126125,126127,1); 
   (126129,126132,1); (126209,126253,1); (126255,126269,1); (127232,127244,1); 
   (130032,130041,1)].

Definition in_ranges (l : list (N * N * N)) (c : char) : bool :=
  existsb (fun '(lo, hi, step) => (lo <=? c) && (c <=? hi) && ((c - lo) mod step =? 0)) l.

Definition is_uppercase (c : char) : bool :=
  if c <? 128 then (65 <=? c) && (c <=? 90) else in_ranges upper_ranges c.
Definition is_numeric (c : char) : bool :=
  if c <? 128 then (48 <=? c) && (c <=? 57) else in_ranges numeric_ranges c.
