(** The mechanism Burke2012: tables transcribed from src/equations/ideal_gas_mix/mechanism/Burke2012.cpp and include/fub/equations/ideal_gas_mix/mechanism/Burke2012.hpp.
    Decimal and hexadecimal literals of the code are written as the fractions which they denote. *)
From Coq Require Import String List ZArith QArith.
From Verif Require Import MechanismModel.
Import ListNotations.
Local Open Scope Q_scope.

(** The labels of the species without the leading s, include/fub/equations/ideal_gas_mix/mechanism/Burke2012.hpp:39-49 *)
Definition burke_labels : list string := ["N2"; "AR"; "H"; "O2"; "O"; "OH"; "H2"; "H2O"; "HE"; "HO2"; "H2O2"]%string.

(** [getSpeciesNames], include/fub/equations/ideal_gas_mix/mechanism/Burke2012.hpp:162-164 *)
Definition burke_names : list string := ["N2"; "AR"; "H"; "O2"; "O"; "OH"; "H2"; "H2O"; "HE"; "HO2"; "H2O2"]%string.

(** [getMolarMass], include/fub/equations/ideal_gas_mix/mechanism/Burke2012.hpp:149-159 *)
Definition burke_weights : list Q :=
  [(1401 # 50) (* N2 *);
   (9987 # 250) (* AR *);
   (126 # 125) (* H *);
   (32 # 1) (* O2 *);
   (16 # 1) (* O *);
   (2126 # 125) (* OH *);
   (252 # 125) (* H2 *);
   (2252 # 125) (* H2O *);
   (4 # 1) (* HE *);
   (4126 # 125) (* HO2 *);
   (4252 # 125) (* H2O2 *)].

(** The concentrations of third bodies as combinations of concentrations, src/equations/ideal_gas_mix/mechanism/Burke2012.cpp:39-56 *)
Definition burke_third : list (list (Q * nat)) :=
  [[((1 # 1)%Q, 0)%nat; ((1 # 1)%Q, 2)%nat; ((1 # 1)%Q, 3)%nat; ((1 # 1)%Q, 4)%nat; ((1 # 1)%Q, 5)%nat; ((5 # 2)%Q, 6)%nat; ((12 # 1)%Q, 7)%nat; ((1 # 1)%Q, 9)%nat; ((1 # 1)%Q, 10)%nat] (* mM1 *);
   [((1 # 1)%Q, 0)%nat; ((1 # 1)%Q, 2)%nat; ((1 # 1)%Q, 3)%nat; ((1 # 1)%Q, 4)%nat; ((1 # 1)%Q, 5)%nat; ((5 # 2)%Q, 6)%nat; ((12 # 1)%Q, 7)%nat; ((1 # 1)%Q, 9)%nat; ((1 # 1)%Q, 10)%nat] (* mM2 *);
   [((1 # 1)%Q, 0)%nat; ((3 # 4)%Q, 1)%nat; ((1 # 1)%Q, 2)%nat; ((1 # 1)%Q, 3)%nat; ((1 # 1)%Q, 4)%nat; ((1 # 1)%Q, 5)%nat; ((5 # 2)%Q, 6)%nat; ((12 # 1)%Q, 7)%nat; ((3 # 4)%Q, 8)%nat; ((1 # 1)%Q, 9)%nat; ((1 # 1)%Q, 10)%nat] (* mM3 *);
   [((2 # 1)%Q, 0)%nat; ((1 # 1)%Q, 1)%nat; ((1 # 1)%Q, 2)%nat; ((3 # 2)%Q, 3)%nat; ((1 # 1)%Q, 4)%nat; ((1 # 1)%Q, 5)%nat; ((3 # 1)%Q, 6)%nat; ((11 # 10)%Q, 8)%nat; ((1 # 1)%Q, 9)%nat; ((1 # 1)%Q, 10)%nat] (* mM4 *);
   [((1 # 1)%Q, 0)%nat; ((67 # 100)%Q, 1)%nat; ((1 # 1)%Q, 2)%nat; ((39 # 50)%Q, 3)%nat; ((1 # 1)%Q, 4)%nat; ((1 # 1)%Q, 5)%nat; ((2 # 1)%Q, 6)%nat; ((14 # 1)%Q, 7)%nat; ((4 # 5)%Q, 8)%nat; ((1 # 1)%Q, 9)%nat; ((1 # 1)%Q, 10)%nat] (* mM5 *);
   [((3 # 2)%Q, 0)%nat; ((1 # 1)%Q, 1)%nat; ((1 # 1)%Q, 2)%nat; ((6 # 5)%Q, 3)%nat; ((1 # 1)%Q, 4)%nat; ((1 # 1)%Q, 5)%nat; ((37 # 10)%Q, 6)%nat; ((15 # 2)%Q, 7)%nat; ((13 # 20)%Q, 8)%nat; ((1 # 1)%Q, 9)%nat; ((77 # 10)%Q, 10)%nat] (* mM6 *)].

(** Rate coefficients, src/equations/ideal_gas_mix/mechanism/Burke2012.cpp:58-121, and rates, :123-176, of the reactions; label, line of the coefficient and of the rate in comments *)
Definition burke_reactions : list (coefficient * list factor) :=
  [(Simple (Arr (104000000000 # 1) (0 # 1) (63957000 # 1)), [Conc 2; Conc 3]) (* r1f 58 123 *);
   (Simple (Arr (10339922559 # 50) (217479 # 500000) ((-330258401) # 50)), [Conc 5; Conc 4]) (* r1b 59 124 *);
   (Simple (Arr (3818000000 # 1) (0 # 1) (33254000 # 1)), [Conc 4; Conc 6]) (* r2f 60 125 *);
   (Simple (Arr (22393817467 # 10) ((-70069) # 2000000) (687195627 # 25)), [Conc 5; Conc 2]) (* r2b 61 126 *);
   (Simple (Arr (879200000000 # 1) (0 # 1) (80207000 # 1)), [Conc 4; Conc 6]) (* r3f 62 127 *);
   (Simple (Arr (515679526370 # 1) ((-70069) # 2000000) (1861020627 # 25)), [Conc 5; Conc 2]) (* r3b 63 128 *);
   (Simple (Arr (216000 # 1) (151 # 100) (14351000 # 1)), [Conc 6; Conc 5]) (* r4f 64 129 *);
   (Simple (Arr (22182689717 # 10000) (70819 # 50000) (7706022589 # 100)), [Conc 2; Conc 7]) (* r4b 65 130 *);
   (Simple (Arr (167 # 5) (121 # 50) ((-8075000) # 1)), [Conc 5; Conc 5]) (* r5f 66 131 *);
   (Simple (Arr (3655061827 # 6250000) (236141 # 100000) (6040040081 # 100)), [Conc 7; Conc 4]) (* r5b 67 132 *);
   (Simple (Arr (45770000000000000 # 1) ((-7) # 5) (436726000 # 1)), [Conc 6; Third 0]) (* r6f 68 133 *);
   (Simple (Arr (196193735780000 # 1) ((-1093) # 625) (3646272681 # 1000)), [Conc 2; Conc 2; Third 0]) (* r6b 69 134 *);
   (Simple (Arr (5840000000000000 # 1) ((-11) # 10) (436726000 # 1)), [Conc 6; Conc 1]) (* r7f 70 135 *);
   (Simple (Arr (25033240484000 # 1) ((-1811) # 1250) (3646272681 # 1000)), [Conc 1; Conc 2; Conc 2]) (* r7b 71 136 *);
   (Simple (Arr (5840000000000000 # 1) ((-11) # 10) (436726000 # 1)), [Conc 6; Conc 8]) (* r8f 72 137 *);
   (Simple (Arr (25033240484000 # 1) ((-1811) # 1250) (3646272681 # 1000)), [Conc 8; Conc 2; Conc 2]) (* r8b 73 138 *);
   (Simple (Arr (6165000000 # 1) ((-1) # 2) (0 # 1)), [Conc 4; Conc 4; Third 1]) (* r9f 74 139 *);
   (Simple (Arr (424235613860000 # 1) ((-77649) # 125000) (2489378602 # 5)), [Conc 3; Third 1]) (* r9b 75 140 *);
   (Simple (Arr (18860000 # 1) (0 # 1) ((-7481000) # 1)), [Conc 4; Conc 4; Conc 1]) (* r10f 76 141 *);
   (Simple (Arr (1297823791900 # 1) ((-15149) # 125000) (2451973602 # 5)), [Conc 1; Conc 3]) (* r10b 77 142 *);
   (Simple (Arr (18860000 # 1) (0 # 1) ((-7481000) # 1)), [Conc 4; Conc 4; Conc 8]) (* r11f 78 143 *);
   (Simple (Arr (1297823791900 # 1) ((-15149) # 125000) (2451973602 # 5)), [Conc 8; Conc 3]) (* r11b 79 144 *);
   (Simple (Arr (4714000000000 # 1) ((-1) # 1) (0 # 1)), [Conc 4; Conc 2; Third 2]) (* r12f 80 145 *);
   (Simple (Arr (645026509420000 # 1) ((-343117) # 500000) (2136567762 # 5)), [Conc 5; Third 2]) (* r12b 81 146 *);
   (Simple (Arr (6064000000000000000000000 # 1) ((-1661) # 500) (505385000 # 1)), [Conc 7; Third 3]) (* r13f 82 147 *);
   (Simple (Arr (2531063049200000000000 # 1) ((-178859) # 50000) (9596046787 # 1000)), [Conc 5; Conc 2; Third 3]) (* r13b 83 148 *);
   (Simple (Arr (100600000000000000000000 # 1) ((-61) # 25) (502833000 # 1)), [Conc 7; Conc 7]) (* r14f 84 149 *);
   (Simple (Arr (41989601376000000000 # 1) ((-134759) # 50000) (7044046787 # 1000)), [Conc 7; Conc 5; Conc 2]) (* r14b 85 150 *);
   (Falloff (Arr (636600000000000 # 1) ((-43) # 25) (2196000 # 1)) (Arr (4651000000 # 1) (11 # 25) (0 # 1)) [Decay (1 # 2) (1 # 1000000000000000000000000000000); Decay (1 # 2) (1000000000000000000000000000000 # 1)] 4, [Conc 2; Conc 3]) (* r15f 89 151 *);
   (Falloff (Arr (902921178990000000 # 1) ((-173291) # 100000) (1034311781 # 5)) (Arr (6596742701000 # 1) (427093 # 1000000) (1023331781 # 5)) [Decay (1 # 2) (1 # 1000000000000000000000000000000); Decay (1 # 2) (1000000000000000000000000000000 # 1)] 4, [Conc 9]) (* r15b 92 152 *);
   (Simple (Arr (2750 # 1) (209 # 100) ((-6071000) # 1)), [Conc 9; Conc 2]) (* r16f 93 153 *);
   (Simple (Arr (11307986269 # 25000000) (245171 # 100000) (1111711856 # 5)), [Conc 3; Conc 6]) (* r16b 94 154 *);
   (Simple (Arr (70790000000 # 1) (0 # 1) (1234000 # 1)), [Conc 9; Conc 2]) (* r17f 95 155 *);
   (Simple (Arr (271594287 # 20) (761631 # 1000000) (766595141 # 5)), [Conc 5; Conc 5]) (* r17b 96 156 *);
   (Simple (Arr (28500000 # 1) (1 # 1) ((-3029000) # 1)), [Conc 9; Conc 4]) (* r18f 97 157 *);
   (Simple (Arr (13747370717 # 5000) (132667 # 100000) (1098090981 # 5)), [Conc 5; Conc 3]) (* r18b 98 158 *);
   (Simple (Arr (28900000000 # 1) (0 # 1) ((-2079000) # 1)), [Conc 9; Conc 5]) (* r19f 99 159 *);
   (Simple (Arr (48816975193 # 1) (268083 # 1000000) (2890435971 # 10)), [Conc 3; Conc 7]) (* r19b 100 160 *);
   (Simple (Arr (420000000000 # 1) (0 # 1) (50133000 # 1)), [Conc 9; Conc 9]) (* r20f 101 161 *);
   (Simple (Arr (63574616360000 # 1) ((-389273) # 1000000) (2122110537 # 10)), [Conc 3; Conc 10]) (* r20b 102 162 *);
   (Simple (Arr (130000000 # 1) (0 # 1) ((-6817000) # 1)), [Conc 9; Conc 9]) (* r21f 103 163 *);
   (Simple (Arr (19677857445 # 1) ((-389273) # 1000000) (1552610537 # 10)), [Conc 3; Conc 10]) (* r21b 104 164 *);
   (Falloff (Arr (2490000000000000000000 # 1) ((-23) # 10) (203970000 # 1)) (Arr (2000000000000 # 1) (9 # 10) (203966000 # 1)) [Decay (57 # 100) (1 # 1000000000000000000000000000000); Decay (43 # 100) (1000000000000000000000000000000 # 1)] 5, [Conc 10]) (* r22f 108 165 *);
   (Falloff (Arr (2224848309200 # 1) ((-113619) # 100000) ((-534469083) # 50)) (Arr (17870267543 # 10000000) (206381 # 100000) ((-534669083) # 50)) [Decay (57 # 100) (1 # 1000000000000000000000000000000); Decay (43 # 100) (1000000000000000000000000000000 # 1)] 5, [Conc 5; Conc 5]) (* r22b 111 166 *);
   (Simple (Arr (24100000000 # 1) (0 # 1) (16610000 # 1)), [Conc 10; Conc 2]) (* r23f 112 167 *);
   (Simple (Arr (12897761419 # 250000) (141899 # 100000) (1488697858 # 5)), [Conc 5; Conc 7]) (* r23b 113 168 *);
   (Simple (Arr (48200000000 # 1) (0 # 1) (33263000 # 1)), [Conc 10; Conc 2]) (* r24f 114 169 *);
   (Simple (Arr (52375134409 # 1000) (37549 # 50000) (2489957936 # 25)), [Conc 6; Conc 9]) (* r24b 115 170 *);
   (Simple (Arr (9550 # 1) (2 # 1) (16610000 # 1)), [Conc 10; Conc 4]) (* r25f 116 171 *);
   (Simple (Arr (30432925163 # 5000000000) (54319 # 20000) (1929478563 # 25)), [Conc 9; Conc 5]) (* r25b 117 172 *);
   (Simple (Arr (1740000000 # 1) (0 # 1) (1331000 # 1)), [Conc 10; Conc 5]) (* r26f 118 173 *);
   (Simple (Arr (19417254097 # 1000) (164339 # 250000) (1303755433 # 10)), [Conc 7; Conc 9]) (* r26b 119 174 *);
   (Simple (Arr (75900000000 # 1) (0 # 1) (30418000 # 1)), [Conc 10; Conc 5]) (* r27f 120 175 *);
   (Simple (Arr (21174850373 # 25) (164339 # 250000) (1594625433 # 10)), [Conc 7; Conc 9]) (* r27b 121 176 *)].

(** Production rates of the species as combinations of rates of reactions, src/equations/ideal_gas_mix/mechanism/Burke2012.cpp:178-225 *)
Definition burke_production : list (list (Z * N)) :=
  [[] (* N2 178 *);
   [((-1)%Z, 12%N); (1%Z, 12%N); ((-1)%Z, 13%N); (1%Z, 13%N); ((-1)%Z, 18%N); (1%Z, 18%N); ((-1)%Z, 19%N); (1%Z, 19%N)] (* AR 180 *);
   [((-1)%Z, 0%N); (1%Z, 1%N); (1%Z, 2%N); ((-1)%Z, 3%N); (1%Z, 4%N); ((-1)%Z, 5%N); (1%Z, 6%N); ((-1)%Z, 7%N); (2%Z, 10%N); ((-2)%Z, 11%N); (2%Z, 12%N); ((-2)%Z, 13%N); (2%Z, 14%N); ((-2)%Z, 15%N); ((-1)%Z, 22%N); (1%Z, 23%N); (1%Z, 24%N); ((-1)%Z, 25%N); (1%Z, 26%N); ((-1)%Z, 27%N); ((-1)%Z, 28%N); (1%Z, 29%N); ((-1)%Z, 30%N); (1%Z, 31%N); ((-1)%Z, 32%N); (1%Z, 33%N); ((-1)%Z, 44%N); (1%Z, 45%N); ((-1)%Z, 46%N); (1%Z, 47%N)] (* H 183 *);
   [((-1)%Z, 0%N); (1%Z, 1%N); (1%Z, 16%N); ((-1)%Z, 17%N); (1%Z, 18%N); ((-1)%Z, 19%N); (1%Z, 20%N); ((-1)%Z, 21%N); ((-1)%Z, 28%N); (1%Z, 29%N); (1%Z, 30%N); ((-1)%Z, 31%N); (1%Z, 34%N); ((-1)%Z, 35%N); (1%Z, 36%N); ((-1)%Z, 37%N); (1%Z, 38%N); ((-1)%Z, 39%N); (1%Z, 40%N); ((-1)%Z, 41%N)] (* O2 189 *);
   [(1%Z, 0%N); ((-1)%Z, 1%N); ((-1)%Z, 2%N); (1%Z, 3%N); ((-1)%Z, 4%N); (1%Z, 5%N); (1%Z, 8%N); ((-1)%Z, 9%N); ((-2)%Z, 16%N); (2%Z, 17%N); ((-2)%Z, 18%N); (2%Z, 19%N); ((-2)%Z, 20%N); (2%Z, 21%N); ((-1)%Z, 22%N); (1%Z, 23%N); ((-1)%Z, 34%N); (1%Z, 35%N); ((-1)%Z, 48%N); (1%Z, 49%N)] (* O 194 *);
   [(1%Z, 0%N); ((-1)%Z, 1%N); (1%Z, 2%N); ((-1)%Z, 3%N); (1%Z, 4%N); ((-1)%Z, 5%N); ((-1)%Z, 6%N); (1%Z, 7%N); ((-2)%Z, 8%N); (2%Z, 9%N); (1%Z, 22%N); ((-1)%Z, 23%N); (1%Z, 24%N); ((-1)%Z, 25%N); (1%Z, 26%N); ((-1)%Z, 27%N); (2%Z, 32%N); ((-2)%Z, 33%N); (1%Z, 34%N); ((-1)%Z, 35%N); ((-1)%Z, 36%N); (1%Z, 37%N); (2%Z, 42%N); ((-2)%Z, 43%N); (1%Z, 44%N); ((-1)%Z, 45%N); (1%Z, 48%N); ((-1)%Z, 49%N); ((-1)%Z, 50%N); (1%Z, 51%N); ((-1)%Z, 52%N); (1%Z, 53%N)] (* OH 199 *);
   [((-1)%Z, 2%N); (1%Z, 3%N); ((-1)%Z, 4%N); (1%Z, 5%N); ((-1)%Z, 6%N); (1%Z, 7%N); ((-1)%Z, 10%N); (1%Z, 11%N); ((-1)%Z, 12%N); (1%Z, 13%N); ((-1)%Z, 14%N); (1%Z, 15%N); (1%Z, 30%N); ((-1)%Z, 31%N); (1%Z, 46%N); ((-1)%Z, 47%N)] (* H2 206 *);
   [(1%Z, 6%N); ((-1)%Z, 7%N); (1%Z, 8%N); ((-1)%Z, 9%N); ((-1)%Z, 24%N); (1%Z, 25%N); ((-2)%Z, 26%N); (1%Z, 26%N); ((-1)%Z, 27%N); (2%Z, 27%N); (1%Z, 36%N); ((-1)%Z, 37%N); (1%Z, 44%N); ((-1)%Z, 45%N); (1%Z, 50%N); ((-1)%Z, 51%N); (1%Z, 52%N); ((-1)%Z, 53%N)] (* H2O 210 *);
   [((-1)%Z, 14%N); (1%Z, 14%N); ((-1)%Z, 15%N); (1%Z, 15%N); ((-1)%Z, 20%N); (1%Z, 20%N); ((-1)%Z, 21%N); (1%Z, 21%N)] (* HE 215 *);
   [(1%Z, 28%N); ((-1)%Z, 29%N); ((-1)%Z, 30%N); (1%Z, 31%N); ((-1)%Z, 32%N); (1%Z, 33%N); ((-1)%Z, 34%N); (1%Z, 35%N); ((-1)%Z, 36%N); (1%Z, 37%N); ((-2)%Z, 38%N); (2%Z, 39%N); ((-2)%Z, 40%N); (2%Z, 41%N); (1%Z, 46%N); ((-1)%Z, 47%N); (1%Z, 48%N); ((-1)%Z, 49%N); (1%Z, 50%N); ((-1)%Z, 51%N); (1%Z, 52%N); ((-1)%Z, 53%N)] (* HO2 218 *);
   [(1%Z, 38%N); ((-1)%Z, 39%N); (1%Z, 40%N); ((-1)%Z, 41%N); ((-1)%Z, 42%N); (1%Z, 43%N); ((-1)%Z, 44%N); (1%Z, 45%N); ((-1)%Z, 46%N); (1%Z, 47%N); ((-1)%Z, 48%N); (1%Z, 49%N); ((-1)%Z, 50%N); (1%Z, 51%N); ((-1)%Z, 52%N); (1%Z, 53%N)] (* H2O2 223 *)].

(** Burke2012; GetLindRateCoeff is src/equations/ideal_gas_mix/mechanism/Burke2012.cpp:793-823 *)
Definition burke : tables := mkTables burke_weights burke_third burke_reactions burke_production LindBurke.
