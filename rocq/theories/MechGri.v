(** The mechanism Gri30: tables transcribed from src/equations/ideal_gas_mix/mechanism/Gri30.cpp and include/fub/equations/ideal_gas_mix/mechanism/Gri30.hpp.
    Decimal and hexadecimal literals of the code are written as the fractions which they denote. *)
From Coq Require Import String List ZArith QArith.
From Verif Require Import MechanismModel.
Import ListNotations.
Local Open Scope Q_scope.

(** The labels of the species without the leading s, include/fub/equations/ideal_gas_mix/mechanism/Gri30.hpp:39-91 *)
Definition gri_labels : list string := ["AR"; "O"; "O2"; "H"; "OH"; "H2"; "HO2"; "H2O2"; "CH"; "CO"; "3XCH2"; "HCO"; "1XCH2"; "CH3"; "CH2O"; "CH4"; "CO2"; "CH2OH"; "CH3O"; "CH3OH"; "C2H"; "C2H2"; "HCCO"; "C2H3"; "CH2CO"; "C2H4"; "C2H5"; "C2H6"; "H2O"; "N2"; "C"; "HCCOH"; "N"; "NO"; "N2O"; "NO2"; "NH"; "HNO"; "NH2"; "NNH"; "CN"; "NCO"; "HCN"; "HOCN"; "HNCO"; "H2CN"; "HCNN"; "HCNO"; "NH3"; "CH2CHO"; "CH3CHO"; "C3H8"; "C3H7"]%string.

(** [getSpeciesNames], include/fub/equations/ideal_gas_mix/mechanism/Gri30.hpp:810-818 *)
Definition gri_names : list string := ["AR"; "O "; "O2"; "H "; "OH"; "H2"; "HO2 "; "H2O2"; "CH"; "CO"; "3-CH2"; "HCO"; "1-CH2"; "CH3"; "CH2O"; "CH4"; "CO2"; "CH2OH"; "CH3O"; "CH3OH"; "C2H"; "C2H2"; "HCCO"; "C2H3"; "CH2CO"; "C2H4"; "C2H5"; "C2H6"; "H2O"; "N2"; "C"; "HCCOH"; "N"; "NO"; "N2O"; "NO2"; "NH"; "HNO"; "NH2"; "NNH"; "CN"; "NCO"; "HCN"; "HOCN"; "HNCO"; "H2CN"; "HCNN"; "HCNO"; "NH3"; "CH2CHO"; "CH3CHO"; "C3H8"; "C3H7"]%string.

(** [getMolarMass], include/fub/equations/ideal_gas_mix/mechanism/Gri30.hpp:755-807 *)
Definition gri_weights : list Q :=
  [(5622181184818643 # 140737488355328) (* AR *);
   (16 # 1) (* O *);
   (32 # 1) (* O2 *);
   (1134907106097365 # 1125899906842624) (* H *);
   (4787326403894837 # 281474976710656) (* OH *);
   (1134907106097365 # 562949953421312) (* H2 *);
   (4645463015632667 # 140737488355328) (* HO2 *);
   (4787326403894837 # 140737488355328) (* H2O2 *);
   (458030155852415 # 35184372088832) (* CH *);
   (3942057048832737 # 140737488355328) (* CO *);
   (3947968023343661 # 281474976710656) (* 3XCH2 *);
   (1020980109273727 # 35184372088832) (* HCO *);
   (3947968023343661 # 281474976710656) (* 1XCH2 *);
   (2115847399934001 # 140737488355328) (* CH3 *);
   (2112891912678539 # 70368744177664) (* CH2O *);
   (564427697049043 # 35184372088832) (* CH4 *);
   (6193856862517985 # 140737488355328) (* CO2 *);
   (4367647213619249 # 140737488355328) (* CH2OH *);
   (4367647213619249 # 140737488355328) (* CH3O *);
   (1127377650470355 # 35184372088832) (* CH3OH *);
   (3522377858557149 # 140737488355328) (* C2H *);
   (458030155852415 # 17592186044416) (* C2H2 *);
   (5774177672242397 # 140737488355328) (* HCCO *);
   (7612209270162981 # 281474976710656) (* C2H3 *);
   (739505132563071 # 17592186044416) (* CH2CO *);
   (3947968023343661 # 140737488355328) (* C2H4 *);
   (8179662823211663 # 281474976710656) (* C2H5 *);
   (2115847399934001 # 70368744177664) (* C2H6 *);
   (2535526590209589 # 140737488355328) (* H2O *);
   (7886928847432581 # 281474976710656) (* N2 *);
   (6761028940589957 # 562949953421312) (* C *);
   (739505132563071 # 17592186044416) (* HCCOH *);
   (7886928847432581 # 562949953421312) (* N *);
   (4223532025543393 # 140737488355328) (* NO *);
   (3097632118700769 # 70368744177664) (* N2O *);
   (6475331839228641 # 140737488355328) (* NO2 *);
   (528398900030079 # 35184372088832) (* NH *);
   (1091348853451391 # 35184372088832) (* HNO *);
   (4510917976764973 # 281474976710656) (* NH2 *);
   (4085327811978461 # 140737488355328) (* NNH *);
   (7323978894011269 # 281474976710656) (* CN *);
   (2956894630345441 # 70368744177664) (* NCO *);
   (3803852835267805 # 140737488355328) (* HCN *);
   (6055652648953053 # 140737488355328) (* HOCN *);
   (6055652648953053 # 140737488355328) (* HNCO *);
   (493214527941247 # 17592186044416) (* H2CN *);
   (2887792523562975 # 70368744177664) (* HCNN *);
   (6055652648953053 # 140737488355328) (* HCNO *);
   (2397322376644657 # 140737488355328) (* NH3 *);
   (3028952224383369 # 70368744177664) (* CH2CHO *);
   (6199767837028909 # 140737488355328) (* CH3CHO *);
   (6205678811539833 # 140737488355328) (* C3H8 *);
   (3031907711638831 # 70368744177664) (* C3H7 *)].

(** The concentrations of third bodies as combinations of concentrations, src/equations/ideal_gas_mix/mechanism/Gri30.cpp:41-104 *)
Definition gri_third : list (list (Q * nat)) :=
  [[((1 # 1)%Q, 0)%nat; ((1 # 1)%Q, 1)%nat; ((1 # 1)%Q, 2)%nat; ((1 # 1)%Q, 3)%nat; ((1 # 1)%Q, 4)%nat; ((5404319552844595 # 2251799813685248)%Q, 5)%nat; ((1 # 1)%Q, 6)%nat; ((1 # 1)%Q, 7)%nat; ((1 # 1)%Q, 8)%nat; ((7 # 4)%Q, 9)%nat; ((1 # 1)%Q, 10)%nat; ((1 # 1)%Q, 11)%nat; ((1 # 1)%Q, 12)%nat; ((1 # 1)%Q, 13)%nat; ((1 # 1)%Q, 14)%nat; ((2 # 1)%Q, 15)%nat; ((8106479329266893 # 2251799813685248)%Q, 16)%nat; ((1 # 1)%Q, 17)%nat; ((1 # 1)%Q, 18)%nat; ((1 # 1)%Q, 19)%nat; ((1 # 1)%Q, 20)%nat; ((1 # 1)%Q, 21)%nat; ((1 # 1)%Q, 22)%nat; ((1 # 1)%Q, 23)%nat; ((1 # 1)%Q, 24)%nat; ((1 # 1)%Q, 25)%nat; ((1 # 1)%Q, 26)%nat; ((3 # 1)%Q, 27)%nat; ((8669429282688205 # 562949953421312)%Q, 28)%nat; ((1 # 1)%Q, 29)%nat; ((1 # 1)%Q, 30)%nat; ((1 # 1)%Q, 31)%nat; ((1 # 1)%Q, 32)%nat; ((1 # 1)%Q, 33)%nat; ((1 # 1)%Q, 34)%nat; ((1 # 1)%Q, 35)%nat; ((1 # 1)%Q, 36)%nat; ((1 # 1)%Q, 37)%nat; ((1 # 1)%Q, 38)%nat; ((1 # 1)%Q, 39)%nat; ((1 # 1)%Q, 40)%nat; ((1 # 1)%Q, 41)%nat; ((1 # 1)%Q, 42)%nat; ((1 # 1)%Q, 43)%nat; ((1 # 1)%Q, 44)%nat; ((1 # 1)%Q, 45)%nat; ((1 # 1)%Q, 46)%nat; ((1 # 1)%Q, 47)%nat; ((1 # 1)%Q, 48)%nat; ((1 # 1)%Q, 49)%nat; ((1 # 1)%Q, 50)%nat; ((1 # 1)%Q, 51)%nat; ((1 # 1)%Q, 52)%nat] (* mM1 *);
   [((1 # 1)%Q, 0)%nat; ((1 # 1)%Q, 1)%nat; ((1 # 1)%Q, 2)%nat; ((1 # 1)%Q, 3)%nat; ((1 # 1)%Q, 4)%nat; ((2 # 1)%Q, 5)%nat; ((1 # 1)%Q, 6)%nat; ((1 # 1)%Q, 7)%nat; ((1 # 1)%Q, 8)%nat; ((3 # 2)%Q, 9)%nat; ((1 # 1)%Q, 10)%nat; ((1 # 1)%Q, 11)%nat; ((1 # 1)%Q, 12)%nat; ((1 # 1)%Q, 13)%nat; ((1 # 1)%Q, 14)%nat; ((2 # 1)%Q, 15)%nat; ((2 # 1)%Q, 16)%nat; ((1 # 1)%Q, 17)%nat; ((1 # 1)%Q, 18)%nat; ((1 # 1)%Q, 19)%nat; ((1 # 1)%Q, 20)%nat; ((1 # 1)%Q, 21)%nat; ((1 # 1)%Q, 22)%nat; ((1 # 1)%Q, 23)%nat; ((1 # 1)%Q, 24)%nat; ((1 # 1)%Q, 25)%nat; ((1 # 1)%Q, 26)%nat; ((3 # 1)%Q, 27)%nat; ((6 # 1)%Q, 28)%nat; ((1 # 1)%Q, 29)%nat; ((1 # 1)%Q, 30)%nat; ((1 # 1)%Q, 31)%nat; ((1 # 1)%Q, 32)%nat; ((1 # 1)%Q, 33)%nat; ((1 # 1)%Q, 34)%nat; ((1 # 1)%Q, 35)%nat; ((1 # 1)%Q, 36)%nat; ((1 # 1)%Q, 37)%nat; ((1 # 1)%Q, 38)%nat; ((1 # 1)%Q, 39)%nat; ((1 # 1)%Q, 40)%nat; ((1 # 1)%Q, 41)%nat; ((1 # 1)%Q, 42)%nat; ((1 # 1)%Q, 43)%nat; ((1 # 1)%Q, 44)%nat; ((1 # 1)%Q, 45)%nat; ((1 # 1)%Q, 46)%nat; ((1 # 1)%Q, 47)%nat; ((1 # 1)%Q, 48)%nat; ((1 # 1)%Q, 49)%nat; ((1 # 1)%Q, 50)%nat; ((1 # 1)%Q, 51)%nat; ((1 # 1)%Q, 52)%nat] (* mM2 *);
   [((1 # 1)%Q, 0)%nat; ((1 # 1)%Q, 1)%nat; ((6 # 1)%Q, 2)%nat; ((1 # 1)%Q, 3)%nat; ((1 # 1)%Q, 4)%nat; ((2 # 1)%Q, 5)%nat; ((1 # 1)%Q, 6)%nat; ((1 # 1)%Q, 7)%nat; ((1 # 1)%Q, 8)%nat; ((3 # 2)%Q, 9)%nat; ((1 # 1)%Q, 10)%nat; ((1 # 1)%Q, 11)%nat; ((1 # 1)%Q, 12)%nat; ((1 # 1)%Q, 13)%nat; ((1 # 1)%Q, 14)%nat; ((2 # 1)%Q, 15)%nat; ((7 # 2)%Q, 16)%nat; ((1 # 1)%Q, 17)%nat; ((1 # 1)%Q, 18)%nat; ((1 # 1)%Q, 19)%nat; ((1 # 1)%Q, 20)%nat; ((1 # 1)%Q, 21)%nat; ((1 # 1)%Q, 22)%nat; ((1 # 1)%Q, 23)%nat; ((1 # 1)%Q, 24)%nat; ((1 # 1)%Q, 25)%nat; ((1 # 1)%Q, 26)%nat; ((3 # 1)%Q, 27)%nat; ((6 # 1)%Q, 28)%nat; ((1 # 1)%Q, 29)%nat; ((1 # 1)%Q, 30)%nat; ((1 # 1)%Q, 31)%nat; ((1 # 1)%Q, 32)%nat; ((1 # 1)%Q, 33)%nat; ((1 # 1)%Q, 34)%nat; ((1 # 1)%Q, 35)%nat; ((1 # 1)%Q, 36)%nat; ((1 # 1)%Q, 37)%nat; ((1 # 1)%Q, 38)%nat; ((1 # 1)%Q, 39)%nat; ((1 # 1)%Q, 40)%nat; ((1 # 1)%Q, 41)%nat; ((1 # 1)%Q, 42)%nat; ((1 # 1)%Q, 43)%nat; ((1 # 1)%Q, 44)%nat; ((1 # 1)%Q, 45)%nat; ((1 # 1)%Q, 46)%nat; ((1 # 1)%Q, 47)%nat; ((1 # 1)%Q, 48)%nat; ((1 # 1)%Q, 49)%nat; ((1 # 1)%Q, 50)%nat; ((1 # 1)%Q, 51)%nat; ((1 # 1)%Q, 52)%nat] (* mM3 *);
   [((1 # 1)%Q, 0)%nat; ((1 # 1)%Q, 1)%nat; ((1 # 1)%Q, 3)%nat; ((1 # 1)%Q, 4)%nat; ((1 # 1)%Q, 5)%nat; ((1 # 1)%Q, 6)%nat; ((1 # 1)%Q, 7)%nat; ((1 # 1)%Q, 8)%nat; ((3 # 4)%Q, 9)%nat; ((1 # 1)%Q, 10)%nat; ((1 # 1)%Q, 11)%nat; ((1 # 1)%Q, 12)%nat; ((1 # 1)%Q, 13)%nat; ((1 # 1)%Q, 14)%nat; ((1 # 1)%Q, 15)%nat; ((3 # 2)%Q, 16)%nat; ((1 # 1)%Q, 17)%nat; ((1 # 1)%Q, 18)%nat; ((1 # 1)%Q, 19)%nat; ((1 # 1)%Q, 20)%nat; ((1 # 1)%Q, 21)%nat; ((1 # 1)%Q, 22)%nat; ((1 # 1)%Q, 23)%nat; ((1 # 1)%Q, 24)%nat; ((1 # 1)%Q, 25)%nat; ((1 # 1)%Q, 26)%nat; ((3 # 2)%Q, 27)%nat; ((1 # 1)%Q, 30)%nat; ((1 # 1)%Q, 31)%nat; ((1 # 1)%Q, 32)%nat; ((1 # 1)%Q, 33)%nat; ((1 # 1)%Q, 34)%nat; ((1 # 1)%Q, 35)%nat; ((1 # 1)%Q, 36)%nat; ((1 # 1)%Q, 37)%nat; ((1 # 1)%Q, 38)%nat; ((1 # 1)%Q, 39)%nat; ((1 # 1)%Q, 40)%nat; ((1 # 1)%Q, 41)%nat; ((1 # 1)%Q, 42)%nat; ((1 # 1)%Q, 43)%nat; ((1 # 1)%Q, 44)%nat; ((1 # 1)%Q, 45)%nat; ((1 # 1)%Q, 46)%nat; ((1 # 1)%Q, 47)%nat; ((1 # 1)%Q, 48)%nat; ((1 # 1)%Q, 49)%nat; ((1 # 1)%Q, 50)%nat; ((1 # 1)%Q, 51)%nat; ((1 # 1)%Q, 52)%nat] (* mM4 *);
   [((1 # 1)%Q, 0)%nat; ((1 # 1)%Q, 1)%nat; ((1 # 1)%Q, 2)%nat; ((1 # 1)%Q, 3)%nat; ((1 # 1)%Q, 4)%nat; ((1 # 1)%Q, 6)%nat; ((1 # 1)%Q, 7)%nat; ((1 # 1)%Q, 8)%nat; ((1 # 1)%Q, 9)%nat; ((1 # 1)%Q, 10)%nat; ((1 # 1)%Q, 11)%nat; ((1 # 1)%Q, 12)%nat; ((1 # 1)%Q, 13)%nat; ((1 # 1)%Q, 14)%nat; ((2 # 1)%Q, 15)%nat; ((1 # 1)%Q, 17)%nat; ((1 # 1)%Q, 18)%nat; ((1 # 1)%Q, 19)%nat; ((1 # 1)%Q, 20)%nat; ((1 # 1)%Q, 21)%nat; ((1 # 1)%Q, 22)%nat; ((1 # 1)%Q, 23)%nat; ((1 # 1)%Q, 24)%nat; ((1 # 1)%Q, 25)%nat; ((1 # 1)%Q, 26)%nat; ((3 # 1)%Q, 27)%nat; ((1 # 1)%Q, 29)%nat; ((1 # 1)%Q, 30)%nat; ((1 # 1)%Q, 31)%nat; ((1 # 1)%Q, 32)%nat; ((1 # 1)%Q, 33)%nat; ((1 # 1)%Q, 34)%nat; ((1 # 1)%Q, 35)%nat; ((1 # 1)%Q, 36)%nat; ((1 # 1)%Q, 37)%nat; ((1 # 1)%Q, 38)%nat; ((1 # 1)%Q, 39)%nat; ((1 # 1)%Q, 40)%nat; ((1 # 1)%Q, 41)%nat; ((1 # 1)%Q, 42)%nat; ((1 # 1)%Q, 43)%nat; ((1 # 1)%Q, 44)%nat; ((1 # 1)%Q, 45)%nat; ((1 # 1)%Q, 46)%nat; ((1 # 1)%Q, 47)%nat; ((1 # 1)%Q, 48)%nat; ((1 # 1)%Q, 49)%nat; ((1 # 1)%Q, 50)%nat; ((1 # 1)%Q, 51)%nat; ((1 # 1)%Q, 52)%nat] (* mM5 *);
   [((1 # 1)%Q, 0)%nat; ((1 # 1)%Q, 1)%nat; ((1 # 1)%Q, 2)%nat; ((1 # 1)%Q, 3)%nat; ((1 # 1)%Q, 4)%nat; ((1643813863990231 # 2251799813685248)%Q, 5)%nat; ((1 # 1)%Q, 6)%nat; ((1 # 1)%Q, 7)%nat; ((1 # 1)%Q, 8)%nat; ((1 # 1)%Q, 9)%nat; ((1 # 1)%Q, 10)%nat; ((1 # 1)%Q, 11)%nat; ((1 # 1)%Q, 12)%nat; ((1 # 1)%Q, 13)%nat; ((1 # 1)%Q, 14)%nat; ((2 # 1)%Q, 15)%nat; ((1 # 1)%Q, 16)%nat; ((1 # 1)%Q, 17)%nat; ((1 # 1)%Q, 18)%nat; ((1 # 1)%Q, 19)%nat; ((1 # 1)%Q, 20)%nat; ((1 # 1)%Q, 21)%nat; ((1 # 1)%Q, 22)%nat; ((1 # 1)%Q, 23)%nat; ((1 # 1)%Q, 24)%nat; ((1 # 1)%Q, 25)%nat; ((1 # 1)%Q, 26)%nat; ((3 # 1)%Q, 27)%nat; ((8219069319951155 # 2251799813685248)%Q, 28)%nat; ((1 # 1)%Q, 29)%nat; ((1 # 1)%Q, 30)%nat; ((1 # 1)%Q, 31)%nat; ((1 # 1)%Q, 32)%nat; ((1 # 1)%Q, 33)%nat; ((1 # 1)%Q, 34)%nat; ((1 # 1)%Q, 35)%nat; ((1 # 1)%Q, 36)%nat; ((1 # 1)%Q, 37)%nat; ((1 # 1)%Q, 38)%nat; ((1 # 1)%Q, 39)%nat; ((1 # 1)%Q, 40)%nat; ((1 # 1)%Q, 41)%nat; ((1 # 1)%Q, 42)%nat; ((1 # 1)%Q, 43)%nat; ((1 # 1)%Q, 44)%nat; ((1 # 1)%Q, 45)%nat; ((1 # 1)%Q, 46)%nat; ((1 # 1)%Q, 47)%nat; ((1 # 1)%Q, 48)%nat; ((1 # 1)%Q, 49)%nat; ((1 # 1)%Q, 50)%nat; ((1 # 1)%Q, 51)%nat; ((1 # 1)%Q, 52)%nat] (* mM6 *)].

(** Rate coefficients, src/equations/ideal_gas_mix/mechanism/Gri30.cpp:106-1386, and rates, :1388-2014, of the reactions; label, line of the coefficient and of the rate in comments *)
Definition gri_reactions : list (coefficient * list factor) :=
  [(Simple (Arr (7864320000000003 # 65536) ((-1) # 1) (0 # 1)), [Conc 1; Conc 1; Third 0]) (* r1f 106 1388 *);
   (Simple (Arr (8412761657627203 # 1) ((-4932963547765) # 4398046511104) (8352075041057345 # 16777216)), [Conc 2; Third 0]) (* r1b 107 1389 *);
   (Simple (Arr (8192000000000003 # 16384) ((-1) # 1) (0 # 1)), [Conc 1; Conc 3; Third 1]) (* r2f 109 1390 *);
   (Simple (Arr (69505130758203 # 1) ((-1505953059103) # 2199023255552) (1783434043294163 # 4194304)), [Conc 4; Third 1]) (* r2b 110 1391 *);
   (Simple (Arr (2723270399675597 # 70368744177664) (3039929748475085 # 1125899906842624) (26194400 # 1)), [Conc 1; Conc 5]) (* r3f 112 1392 *);
   (Simple (Arr (50613703167257 # 2199023255552) (6000904593888521 # 2251799813685248) (4914173463963849 # 268435456)), [Conc 4; Conc 3]) (* r3b 114 1393 *);
   (Simple (Arr (5242880000000001 # 262144) (0 # 1) (0 # 1)), [Conc 1; Conc 6]) (* r4f 116 1394 *);
   (Simple (Arr (2023767535178435 # 1048576) (11505653730623 # 35184372088832) (7399960055077557 # 33554432)), [Conc 2; Conc 4]) (* r4b 117 1395 *);
   (Simple (Arr (9630 # 1) (2 # 1) (8985930576691201 # 536870912)), [Conc 1; Conc 7]) (* r5f 119 1396 *);
   (Simple (Arr (5466977611060817 # 281474976710656) (1447849664273165 # 562949953421312) (2539703625432597 # 33554432)), [Conc 6; Conc 4]) (* r5b 120 1397 *);
   (Simple (Arr (7471104000000001 # 131072) (0 # 1) (0 # 1)), [Conc 1; Conc 8]) (* r6f 122 1398 *);
   (Simple (Arr (8200149175779361 # 2048) ((-3883457564711) # 70368744177664) (6202299669294897 # 8388608)), [Conc 9; Conc 3]) (* r6b 123 1399 *);
   (Simple (Arr (5242880000000001 # 65536) (0 # 1) (0 # 1)), [Conc 1; Conc 10]) (* r7f 125 1400 *);
   (Simple (Arr (8010046173110179 # 1024) ((-24324060318585) # 70368744177664) (3215964089010047 # 8388608)), [Conc 11; Conc 3]) (* r7b 126 1401 *);
   (Simple (Arr (7864320000000001 # 524288) (0 # 1) (0 # 1)), [Conc 1; Conc 12]) (* r8f 128 1402 *);
   (Simple (Arr (6185325707491333 # 131072) (12314161607995 # 70368744177664) (6610170240422571 # 8388608)), [Conc 9; Conc 5]) (* r8b 129 1403 *);
   (Simple (Arr (7864320000000001 # 524288) (0 # 1) (0 # 1)), [Conc 1; Conc 12]) (* r9f 131 1404 *);
   (Simple (Arr (8760113900629653 # 8192) ((-28707070571199) # 70368744177664) (3528884232367317 # 8388608)), [Conc 11; Conc 3]) (* r9b 132 1405 *);
   (Simple (Arr (6632243200000001 # 131072) (0 # 1) (0 # 1)), [Conc 1; Conc 13]) (* r10f 134 1406 *);
   (Simple (Arr (430132206963781 # 64) ((-9702475663685) # 35184372088832) (1211677160683409 # 4194304)), [Conc 14; Conc 3]) (* r10b 135 1407 *);
   (Simple (Arr (8761733283840001 # 8589934592) (3 # 2) (35985900 # 1)), [Conc 1; Conc 15]) (* r11f 137 1408 *);
   (Simple (Arr (6125823793581917 # 17592186044416) (4450675578818507 # 2251799813685248) (2554768625189527 # 134217728)), [Conc 13; Conc 4]) (* r11b 138 1409 *);
   (Falloff (Arr (2524971008000001 # 4194304) (0 # 1) (12553200 # 1)) (Arr (4831838208000001 # 268435456) (0 # 1) (9979800 # 1)) [Grow (1 # 1) (0 # 1)] 2, [Conc 1; Conc 9]) (* r12f 143 1410 *);
   (Falloff (Arr (461829178988500224 # 1) ((-8473683770853) # 8796093022208) (2295362601778431 # 4194304)) (Arr (13808845883377080 # 1) ((-8473683770853) # 8796093022208) (2284568979864831 # 4194304)) [Grow (1 # 1) (0 # 1)] 2, [Conc 16]) (* r12b 148 1411 *);
   (Simple (Arr (7864320000000001 # 262144) (0 # 1) (0 # 1)), [Conc 1; Conc 11]) (* r13f 149 1412 *);
   (Simple (Arr (3302488575403497 # 4194304) (77107782917025 # 140737488355328) (1507559687704455 # 4194304)), [Conc 9; Conc 4]) (* r13b 150 1413 *);
   (Simple (Arr (7864320000000001 # 262144) (0 # 1) (0 # 1)), [Conc 1; Conc 11]) (* r14f 152 1414 *);
   (Simple (Arr (8690593413672983 # 2) ((-102827649989403) # 140737488355328) (3933672618431851 # 8388608)), [Conc 16; Conc 3]) (* r14b 153 1415 *);
   (Simple (Arr (5111808000000001 # 131072) (0 # 1) (14812800 # 1)), [Conc 1; Conc 14]) (* r15f 155 1416 *);
   (Simple (Arr (324031131118089 # 8388608) (233281108131797 # 562949953421312) (295325994516993 # 4194304)), [Conc 11; Conc 4]) (* r15b 156 1417 *);
   (Simple (Arr (5242880000000001 # 524288) (0 # 1) (0 # 1)), [Conc 1; Conc 17]) (* r16f 158 1418 *);
   (Simple (Arr (4670245142411771 # 33554432) (49014541057131 # 70368744177664) (2537052482908805 # 8388608)), [Conc 14; Conc 4]) (* r16b 159 1419 *);
   (Simple (Arr (5242880000000001 # 524288) (0 # 1) (0 # 1)), [Conc 1; Conc 18]) (* r17f 161 1420 *);
   (Simple (Arr (8448291855788141 # 536870912) (89715101856997 # 140737488355328) (5552716223688899 # 16777216)), [Conc 14; Conc 4]) (* r17b 162 1421 *);
   (Simple (Arr (6825768185233409 # 17592186044416) (5 # 2) (12971700 # 1)), [Conc 1; Conc 19]) (* r18f 164 1422 *);
   (Simple (Arr (971701640176595 # 562949953421312) (3012855299551843 # 1125899906842624) (8714369262817875 # 268435456)), [Conc 17; Conc 4]) (* r18b 165 1423 *);
   (Simple (Arr (4573968371548161 # 35184372088832) (5 # 2) (20922000 # 1)), [Conc 1; Conc 19]) (* r19f 167 1424 *);
   (Simple (Arr (2879620879774533 # 562949953421312) (6158734283219895 # 2251799813685248) (6381463085428487 # 536870912)), [Conc 18; Conc 4]) (* r19b 168 1425 *);
   (Simple (Arr (6553600000000001 # 131072) (0 # 1) (0 # 1)), [Conc 1; Conc 20]) (* r20f 170 1426 *);
   (Simple (Arr (6270813530086667 # 268435456) (35629274093333 # 35184372088832) (2731510038417615 # 8388608)), [Conc 9; Conc 8]) (* r20b 171 1427 *);
   (Simple (Arr (7421703487488001 # 549755813888) (2 # 1) (8536644785274881 # 1073741824)), [Conc 1; Conc 21]) (* r21f 173 1428 *);
   (Simple (Arr (5722363306478357 # 137438953472) (255858332683415 # 140737488355328) (3012004056771177 # 33554432)), [Conc 22; Conc 3]) (* r21b 175 1429 *);
   (Simple (Arr (46000000000000008 # 1) ((-6350075474592399) # 4503599627370496) (121138000 # 1)), [Conc 1; Conc 21]) (* r22f 177 1430 *);
   (Simple (Arr (2396266806152179 # 256) ((-3821411325268089) # 4503599627370496) ((-1361109487297379) # 134217728)), [Conc 20; Conc 4]) (* r22b 179 1431 *);
   (Simple (Arr (7630610696765441 # 1099511627776) (2 # 1) (8536644785274881 # 1073741824)), [Conc 1; Conc 21]) (* r23f 181 1432 *);
   (Simple (Arr (2602749109260639 # 144115188075855872) (933572500681821 # 281474976710656) (6672680967273585 # 33554432)), [Conc 10; Conc 9]) (* r23b 183 1433 *);
   (Simple (Arr (7864320000000001 # 262144) (0 # 1) (0 # 1)), [Conc 1; Conc 23]) (* r24f 185 1434 *);
   (Simple (Arr (1018576120131819 # 8) ((-42280010675841) # 70368744177664) (6359821091987715 # 16777216)), [Conc 24; Conc 3]) (* r24b 186 1435 *);
   (Simple (Arr (6871947673600001 # 549755813888) (1030198414761001 # 562949953421312) (920569 # 1)), [Conc 1; Conc 25]) (* r25f 188 1436 *);
   (Simple (Arr (5207429540334627 # 36028797018963968) (1524823556414263 # 562949953421312) (7273025105547389 # 67108864)), [Conc 11; Conc 13]) (* r25b 190 1437 *);
   (Simple (Arr (5872025600000001 # 262144) (0 # 1) (0 # 1)), [Conc 1; Conc 26]) (* r26f 192 1438 *);
   (Simple (Arr (5222667390547507 # 268435456) (126765857390159 # 140737488355328) (5464737285322757 # 16777216)), [Conc 14; Conc 13]) (* r26b 193 1439 *);
   (Simple (Arr (6171009010892801 # 68719476736) (1080863910568919 # 562949953421312) (23809300 # 1)), [Conc 1; Conc 27]) (* r27f 195 1440 *);
   (Simple (Arr (2828105760449721 # 281474976710656) (687957723137917 # 281474976710656) (7338540246701413 # 268435456)), [Conc 26; Conc 4]) (* r27b 197 1441 *);
   (Simple (Arr (6553600000000001 # 65536) (0 # 1) (0 # 1)), [Conc 1; Conc 22]) (* r28f 199 1442 *);
   (Simple (Arr (1712732231673793 # 1099511627776) (97515543682309 # 70368744177664) (1789692302728115 # 4194304)), [Conc 9; Conc 9; Conc 3]) (* r28b 200 1443 *);
   (Simple (Arr (5242880000000001 # 524288) (0 # 1) (8985930576691201 # 268435456)), [Conc 1; Conc 24]) (* r29f 202 1444 *);
   (Simple (Arr (2447510053725989 # 536870912) (316437868238227 # 562949953421312) (7847571860779997 # 536870912)), [Conc 22; Conc 4]) (* r29b 203 1445 *);
   (Simple (Arr (7340032000000001 # 4194304) (0 # 1) (5648950 # 1)), [Conc 1; Conc 24]) (* r30f 205 1446 *);
   (Simple (Arr (1994489775644467 # 536870912) (27525487952655 # 35184372088832) (6891669110452817 # 33554432)), [Conc 16; Conc 10]) (* r30b 206 1447 *);
   (Simple (Arr (5242880000000001 # 2097152) (0 # 1) (200015000 # 1)), [Conc 2; Conc 9]) (* r31f 208 1448 *);
   (Simple (Arr (7003377111459551 # 256) ((-118461595160217) # 140737488355328) (3974462476405313 # 16777216)), [Conc 16; Conc 1]) (* r31b 209 1449 *);
   (Simple (Arr (6553600000000001 # 65536) (0 # 1) (167376000 # 1)), [Conc 2; Conc 14]) (* r32f 211 1450 *);
   (Simple (Arr (4304883652278869 # 4194304) (1574100750168949 # 18014398509481984) (5236442954304315 # 2147483648)), [Conc 11; Conc 6]) (* r32b 212 1451 *);
   (Simple (Arr (2867200000000001 # 1024) ((-7746191359077253) # 9007199254740992) (0 # 1)), [Conc 3; Conc 2; Third 3]) (* r33f 214 1452 *);
   (Simple (Arr (8066853530339851 # 2) ((-61350181167669) # 70368744177664) (3433756145637877 # 16777216)), [Conc 6; Third 3]) (* r33b 215 1453 *);
   (Simple (Arr (2662400000000001 # 128) ((-5584463537939415) # 4503599627370496) (0 # 1)), [Conc 3; Conc 2; Conc 2]) (* r34f 217 1454 *);
   (Simple (Arr (29962598826987272 # 1) ((-176180607910369) # 140737488355328) (3433756145637883 # 16777216)), [Conc 2; Conc 6]) (* r34b 218 1455 *);
   (Simple (Arr (2882560000000001 # 256) ((-3422735716801577) # 4503599627370496) (0 # 1)), [Conc 3; Conc 2; Conc 28]) (* r35f 220 1456 *);
   (Simple (Arr (16220137634228520 # 1) ((-217253226999631) # 281474976710656) (3433756145637887 # 16777216)), [Conc 28; Conc 6]) (* r35b 221 1457 *);
   (Simple (Arr (6656000000000003 # 256) ((-5584463537939415) # 4503599627370496) (0 # 1)), [Conc 3; Conc 2; Conc 29]) (* r36f 223 1458 *);
   (Simple (Arr (37453248533720752 # 1) ((-352361215820725) # 281474976710656) (1716878072818939 # 8388608)), [Conc 29; Conc 6]) (* r36b 224 1459 *);
   (Simple (Arr (6784000000000001 # 256) ((-6041128540154783) # 9007199254740992) (71306400 # 1)), [Conc 3; Conc 2]) (* r38f 226 1460 *);
   (Simple (Arr (3443620828128307 # 65536) ((-4213605848824185) # 18014398509481984) ((-5636094181947001) # 4294967296)), [Conc 4; Conc 1]) (* r38b 228 1461 *);
   (Simple (Arr (8192000000000003 # 8192) ((-1) # 1) (0 # 1)), [Conc 3; Conc 3; Third 4]) (* r39f 230 1462 *);
   (Simple (Arr (1869861849413967 # 8) ((-45723157170599) # 70368744177664) (3633034719234665 # 8388608)), [Conc 5; Third 4]) (* r39b 231 1463 *);
   (Simple (Arr (2949120000000001 # 32768) ((-5404319552844595) # 9007199254740992) (0 # 1)), [Conc 3; Conc 3; Conc 5]) (* r40f 233 1464 *);
   (Simple (Arr (2692601063157529 # 128) ((-17575659499537) # 70368744177664) (7266069438469341 # 16777216)), [Conc 5; Conc 5]) (* r40b 234 1465 *);
   (Simple (Arr (7680000000000003 # 128) ((-5) # 4) (0 # 1)), [Conc 3; Conc 3; Conc 28]) (* r41f 236 1466 *);
   (Simple (Arr (14023963870601424 # 1) ((-126630686430025) # 140737488355328) (7266069438469327 # 16777216)), [Conc 28; Conc 5]) (* r41b 237 1467 *);
   (Simple (Arr (2200000000000001 # 4) ((-2) # 1) (0 # 1)), [Conc 3; Conc 3; Conc 16]) (* r42f 239 1468 *);
   (Simple (Arr (128553002147159360 # 1) ((-116091901348259) # 70368744177664) (7266069438469327 # 16777216)), [Conc 16; Conc 5]) (* r42b 240 1469 *);
   (Simple (Arr (22000000000000008 # 1) ((-2) # 1) (0 # 1)), [Conc 3; Conc 4; Third 5]) (* r43f 242 1470 *);
   (Simple (Arr (57024497877302788096 # 1) ((-61734511699617) # 35184372088832) (2088487709802703 # 4194304)), [Conc 28; Third 5]) (* r43b 243 1471 *);
   (Simple (Arr (8325693440000001 # 2097152) (0 # 1) (2807730 # 1)), [Conc 3; Conc 6]) (* r44f 245 1472 *);
   (Simple (Arr (3802266482290773 # 268435456) (195353780015649 # 281474976710656) (7497923436743869 # 33554432)), [Conc 28; Conc 1]) (* r44b 246 1473 *);
   (Simple (Arr (5872025600000001 # 131072) (0 # 1) (4468940 # 1)), [Conc 3; Conc 6]) (* r45f 248 1474 *);
   (Simple (Arr (7622217138175125 # 1048576) (50957296363885 # 140737488355328) (3907289664502503 # 16777216)), [Conc 5; Conc 2]) (* r45b 249 1475 *);
   (Simple (Arr (5505024000000001 # 65536) (0 # 1) (2657100 # 1)), [Conc 3; Conc 6]) (* r46f 251 1476 *);
   (Simple (Arr (4314588701141689 # 268435456) (214992905336735 # 281474976710656) (157888743768231 # 1048576)), [Conc 4; Conc 4]) (* r46b 252 1477 *);
   (Simple (Arr (6652045348044801 # 549755813888) (2 # 1) (21758900 # 1)), [Conc 3; Conc 7]) (* r47f 254 1478 *);
   (Simple (Arr (2887480504528753 # 70368744177664) (22931068594355 # 8796093022208) (2972857025419581 # 33554432)), [Conc 5; Conc 6]) (* r47b 255 1479 *);
   (Simple (Arr (5242880000000001 # 524288) (0 # 1) (15063900 # 1)), [Conc 3; Conc 7]) (* r48f 257 1480 *);
   (Simple (Arr (618134863620047 # 8589934592) (178164329365467 # 140737488355328) (4943627611989333 # 16777216)), [Conc 28; Conc 4]) (* r48b 258 1481 *);
   (Simple (Arr (5406720000000001 # 32768) (0 # 1) (0 # 1)), [Conc 3; Conc 8]) (* r49f 260 1482 *);
   (Simple (Arr (5514833586180135 # 65536) (131966937811953 # 562949953421312) (6536152473232711 # 67108864)), [Conc 5; Conc 30]) (* r49b 261 1483 *);
   (Falloff (Arr (104000000000000032768 # 1) ((-1553741871442821) # 562949953421312) (6695050 # 1)) (Arr (4915200000000001 # 8192) (0 # 1) (0 # 1)) [Decay (7890306547153109 # 18014398509481984) (91 # 1); Decay (2531022990582219 # 4503599627370496) (5836 # 1); Grow (1 # 1) (8552 # 1)] 1, [Conc 3; Conc 10]) (* r50f 269 1484 *);
   (Falloff (Arr (10745374951946448336322560 # 1) ((-412237470303295) # 140737488355328) (3949246787770371 # 8388608)) (Arr (61992547799691032 # 1) ((-95208009770359) # 562949953421312) (3893084637779971 # 8388608)) [Decay (7890306547153109 # 18014398509481984) (91 # 1); Decay (2531022990582219 # 4503599627370496) (5836 # 1); Grow (1 # 1) (8552 # 1)] 1, [Conc 13]) (* r50b 274 1485 *);
   (Simple (Arr (7864320000000001 # 262144) (0 # 1) (0 # 1)), [Conc 3; Conc 12]) (* r51f 275 1486 *);
   (Simple (Arr (1408852773404775 # 1048576) (259161906763377 # 1125899906842624) (6525929138042757 # 134217728)), [Conc 5; Conc 8]) (* r51b 276 1487 *);
   (Falloff (Arr (2620000000000001117832347648 # 1) ((-2679641778285445) # 562949953421312) (10209900 # 1)) (Arr (7116800000000001 # 512) ((-2404922201015845) # 4503599627370496) (2242840 # 1)) [Decay (7818248953115181 # 36028797018963968) (74 # 1); Decay (7052637016462197 # 9007199254740992) (2941 # 1); Grow (1 # 1) (6964 # 1)] 1, [Conc 3; Conc 13]) (* r52f 285 1488 *);
   (Falloff (Arr (1066850665075189405433321318514688 # 1) ((-173153735785433) # 35184372088832) (7589427009920809 # 16777216)) (Arr (5660009253643179008 # 1) ((-3131466155267709) # 4503599627370496) (7455761923415849 # 16777216)) [Decay (7818248953115181 # 36028797018963968) (74 # 1); Decay (7052637016462197 # 9007199254740992) (2941 # 1); Grow (1 # 1) (6964 # 1)] 1, [Conc 15]) (* r52b 290 1489 *);
   (Simple (Arr (5669356830720001 # 8589934592) (1823957849085051 # 1125899906842624) (45358900 # 1)), [Conc 3; Conc 15]) (* r53f 291 1490 *);
   (Simple (Arr (52068008609767 # 137438953472) (2399923229761605 # 1125899906842624) (4871457512075031 # 134217728)), [Conc 5; Conc 13]) (* r53b 293 1491 *);
   (Falloff (Arr (2470000000000001024 # 1) ((-5787125521171087) # 2251799813685248) (7638040990187521 # 4294967296)) (Arr (4571791360000001 # 4194304) (1080863910568919 # 2251799813685248) ((-4672666720010239) # 4294967296)) [Decay (7839866231326559 # 36028797018963968) (271 # 1); Decay (880904087113669 # 1125899906842624) (2755 # 1); Grow (1 # 1) (6570 # 1)] 1, [Conc 3; Conc 11]) (* r54f 302 1492 *);
   (Falloff (Arr (346666267171521105494016 # 1) ((-46957391191673) # 17592186044416) (3115392918945709 # 8388608)) (Arr (611929119379689 # 4) (428721679602931 # 1125899906842624) (3091348567949229 # 8388608)) [Decay (7839866231326559 # 36028797018963968) (271 # 1); Decay (880904087113669 # 1125899906842624) (2755 # 1); Grow (1 # 1) (6570 # 1)] 1, [Conc 14]) (* r54b 307 1493 *);
   (Simple (Arr (4810342400000001 # 65536) (0 # 1) (0 # 1)), [Conc 3; Conc 11]) (* r55f 308 1494 *);
   (Simple (Arr (6792956083914377 # 2097152) (41021232179203 # 70368744177664) (6162572016110511 # 16777216)), [Conc 9; Conc 5]) (* r55b 309 1495 *);
   (Falloff (Arr (127000000000000056388222976 # 1) ((-678354693872681) # 140737488355328) (27324200 # 1)) (Arr (4529848320000001 # 8388608) (8178536923304821 # 18014398509481984) (15063900 # 1)) [Decay (2533725150358641 # 9007199254740992) (103 # 1); Decay (6473474104382351 # 9007199254740992) (1291 # 1); Grow (1 # 1) (4160 # 1)] 1, [Conc 3; Conc 14]) (* r56f 318 1496 *);
   (Falloff (Arr (1268413324338102473750854238208 # 1) ((-2928109133656651) # 562949953421312) (2518055212786265 # 16777216)) (Arr (2761345794590539 # 512) (1308445461995157 # 18014398509481984) (2312361511461465 # 16777216)) [Decay (2533725150358641 # 9007199254740992) (103 # 1); Decay (6473474104382351 # 9007199254740992) (1291 # 1); Grow (1 # 1) (4160 # 1)] 1, [Conc 17]) (* r56b 323 1497 *);
   (Falloff (Arr (2200000000000000822083584 # 1) ((-5404319552844595) # 1125899906842624) (23265300 # 1)) (Arr (4529848320000001 # 8388608) (8178536923304821 # 18014398509481984) (10879400 # 1)) [Decay (272467777455915 # 1125899906842624) (94 # 1); Decay (853432129386709 # 1125899906842624) (1555 # 1); Grow (1 # 1) (4200 # 1)] 1, [Conc 3; Conc 14]) (* r57f 331 1498 *);
   (Falloff (Arr (194343717918506342742717628416 # 1) ((-2883594213559235) # 562949953421312) (7885387651570305 # 67108864)) (Arr (6105926264785071 # 128) (2372634934922821 # 18014398509481984) (7054183972952705 # 67108864)) [Decay (272467777455915 # 1125899906842624) (94 # 1); Decay (853432129386709 # 1125899906842624) (1555 # 1); Grow (1 # 1) (4200 # 1)] 1, [Conc 18]) (* r57b 336 1499 *);
   (Simple (Arr (3944497964646401 # 68719476736) (4278419646001971 # 2251799813685248) (6159842095923199 # 536870912)), [Conc 3; Conc 14]) (* r58f 337 1500 *);
   (Simple (Arr (6726615380077415 # 70368744177664) (1322624745397775 # 562949953421312) (1257614763693463 # 16777216)), [Conc 5; Conc 11]) (* r58b 339 1501 *);
   (Falloff (Arr (43600000000000026541555712 # 1) ((-2617717283409101) # 562949953421312) (21256800 # 1)) (Arr (4424990720000001 # 4194304) (1 # 2) (359859 # 1)) [Decay (3602879701896397 # 9007199254740992) (100 # 1); Decay (5404319552844595 # 9007199254740992) (90000 # 1); Grow (1 # 1) (10000 # 1)] 1, [Conc 3; Conc 17]) (* r59f 347 1502 *);
   (Falloff (Arr (1362391504966579052906173956096 # 1) ((-158709004958785) # 35184372088832) (7163347032106559 # 16777216)) (Arr (2109831982003289 # 64) (359848180779197 # 562949953421312) (6812754539210303 # 16777216)) [Decay (3602879701896397 # 9007199254740992) (100 # 1); Decay (5404319552844595 # 9007199254740992) (90000 # 1); Grow (1 # 1) (10000 # 1)] 1, [Conc 19]) (* r59b 352 1503 *);
   (Simple (Arr (5242880000000001 # 262144) (0 # 1) (0 # 1)), [Conc 3; Conc 17]) (* r60f 353 1504 *);
   (Simple (Arr (3926289831033421 # 8388608) (6435235222227 # 8796093022208) (2603219115555153 # 8388608)), [Conc 14; Conc 5]) (* r60b 354 1505 *);
   (Simple (Arr (5536481280000001 # 33554432) (5854679515581645 # 9007199254740992) ((-1188370) # 1)), [Conc 3; Conc 17]) (* r61f 356 1506 *);
   (Simple (Arr (4752718517047747 # 274877906944) (7306187270398445 # 4503599627370496) (1659670263248515 # 134217728)), [Conc 13; Conc 4]) (* r61b 358 1507 *);
   (Simple (Arr (8598323200000001 # 262144) ((-3242591731706757) # 36028797018963968) (5481430536683521 # 2147483648)), [Conc 3; Conc 17]) (* r62f 360 1508 *);
   (Simple (Arr (8127165080038471 # 68719476736) (6120882037666017 # 4503599627370496) (6789160834820535 # 536870912)), [Conc 28; Conc 12]) (* r62b 362 1509 *);
   (Falloff (Arr (466000000000000197151908029083418624 # 1) ((-8376695306909123) # 1125899906842624) (58916400 # 1)) (Arr (5096079360000001 # 2097152) (4638707616191611 # 9007199254740992) (209220 # 1)) [Decay (5404319552844595 # 18014398509481984) (100 # 1); Decay (3152519739159347 # 4503599627370496) (90000 # 1); Grow (1 # 1) (10000 # 1)] 1, [Conc 3; Conc 18]) (* r63f 371 1510 *);
   (Falloff (Arr (1646306159200177352139204541249119846400 # 1) ((-258951898150925) # 35184372088832) (4136890766825733 # 8388608)) (Arr (4395425474314361 # 512) (5360584144827795 # 9007199254740992) (3644419247020293 # 8388608)) [Decay (5404319552844595 # 18014398509481984) (100 # 1); Decay (3152519739159347 # 4503599627370496) (90000 # 1); Grow (1 # 1) (10000 # 1)] 1, [Conc 19]) (* r63b 376 1511 *);
   (Simple (Arr (5703716569088001 # 137438953472) (1835216848153477 # 1125899906842624) (8644469939240959 # 1073741824)), [Conc 3; Conc 18]) (* r64f 377 1512 *);
   (Simple (Arr (5158900739576203 # 1099511627776) (1768705006095517 # 1125899906842624) (1227362201343871 # 33554432)), [Conc 17; Conc 3]) (* r64b 379 1513 *);
   (Simple (Arr (5242880000000001 # 262144) (0 # 1) (0 # 1)), [Conc 3; Conc 18]) (* r65f 381 1514 *);
   (Simple (Arr (7102505626883355 # 134217728) (47324891649205 # 70368744177664) (2842524744490783 # 8388608)), [Conc 14; Conc 5]) (* r65b 382 1515 *);
   (Simple (Arr (6291456000000001 # 4194304) (1 # 2) ((-7907618907488257) # 17179869184)), [Conc 3; Conc 18]) (* r66f 384 1516 *);
   (Simple (Arr (4884933513320677 # 274877906944) (198893748689403 # 140737488355328) (5586282374927395 # 134217728)), [Conc 13; Conc 4]) (* r66b 386 1517 *);
   (Simple (Arr (8585216000000001 # 32768) ((-8286623314361713) # 36028797018963968) (4477310 # 1)), [Conc 3; Conc 18]) (* r67f 388 1518 *);
   (Simple (Arr (7339657215164645 # 68719476736) (1306082680400505 # 1125899906842624) (5784525238884409 # 134217728)), [Conc 28; Conc 12]) (* r67b 390 1519 *);
   (Simple (Arr (4672924418048001 # 274877906944) (4728779608739021 # 2251799813685248) (20378000 # 1)), [Conc 3; Conc 19]) (* r68f 392 1520 *);
   (Simple (Arr (1118517622970435 # 8796093022208) (1300986394172955 # 562949953421312) (6409907512636907 # 134217728)), [Conc 5; Conc 17]) (* r68b 394 1521 *);
   (Simple (Arr (4617948836659201 # 1099511627776) (4728779608739021 # 2251799813685248) (20378000 # 1)), [Conc 3; Conc 19]) (* r69f 396 1522 *);
   (Simple (Arr (305523038476713 # 1099511627776) (5336969260807895 # 2251799813685248) (5162034899333253 # 268435456)), [Conc 5; Conc 18]) (* r69b 398 1523 *);
   (Falloff (Arr (3750000000000001767815249920 # 1) ((-5404319552844595) # 1125899906842624) (8536644785274881 # 1073741824)) (Arr (6400000000000001 # 64) ((-1) # 1) (0 # 1)) [Decay (3184945656476415 # 9007199254740992) (132 # 1); Decay (5822253598264577 # 9007199254740992) (1315 # 1); Grow (1 # 1) (5566 # 1)] 1, [Conc 3; Conc 20]) (* r70f 406 1524 *);
   (Falloff (Arr (2561773644283240203448933637160960 # 1) ((-355102103099521) # 70368744177664) (2367404581416711 # 4194304)) (Arr (68313963847553056768 # 1) ((-1403214003590365) # 1125899906842624) (2334058312724231 # 4194304)) [Decay (3184945656476415 # 9007199254740992) (132 # 1); Decay (5822253598264577 # 9007199254740992) (1315 # 1); Grow (1 # 1) (5566 # 1)] 1, [Conc 21]) (* r70b 411 1525 *);
   (Falloff (Arr (38000000000000015225681346610331648 # 1) ((-2046323080686469) # 281474976710656) (30211400 # 1)) (Arr (5872025600000001 # 1048576) (0 # 1) (10042600 # 1)) [Decay (8981979096827717 # 36028797018963968) (197 # 2); Decay (6761704480534063 # 9007199254740992) (1302 # 1); Grow (1 # 1) (4167 # 1)] 1, [Conc 3; Conc 21]) (* r71f 418 1526 *);
   (Falloff (Arr (8420258364569674103653317724470247424 # 1) ((-1997942275011065) # 281474976710656) (5939558517321757 # 33554432)) (Arr (5082645217451403 # 4096) (12095201418851 # 70368744177664) (1315701472300039 # 8388608)) [Decay (8981979096827717 # 36028797018963968) (197 # 2); Decay (6761704480534063 # 9007199254740992) (1302 # 1); Grow (1 # 1) (4167 # 1)] 1, [Conc 23]) (* r71b 423 1527 *);
   (Falloff (Arr (1400000000000000620756992 # 1) ((-8691947280825057) # 2251799813685248) (13892200 # 1)) (Arr (6375342080000001 # 1048576) (607985949695017 # 2251799813685248) (5032112533012479 # 4294967296)) [Decay (7854277750134145 # 36028797018963968) (415 # 2); Decay (220113431787733 # 281474976710656) (2663 # 1); Grow (1 # 1) (6095 # 1)] 1, [Conc 3; Conc 23]) (* r72f 431 1528 *);
   (Falloff (Arr (778145125323577540493520666624 # 1) ((-70291926557395) # 17592186044416) (4029983390135727 # 8388608)) (Arr (6758746231381929 # 2) (151283315586757 # 1125899906842624) (3923275514869167 # 8388608)) [Decay (7854277750134145 # 36028797018963968) (415 # 2); Decay (220113431787733 # 281474976710656) (2663 # 1); Grow (1 # 1) (6095 # 1)] 1, [Conc 25]) (* r72b 436 1529 *);
   (Simple (Arr (7864320000000001 # 262144) (0 # 1) (0 # 1)), [Conc 3; Conc 23]) (* r73f 437 1530 *);
   (Simple (Arr (4147714873408611 # 131072) (25100771176463 # 140737488355328) (2401576681635443 # 8388608)), [Conc 21; Conc 5]) (* r73b 438 1531 *);
   (Falloff (Arr (600000000000000202541125532022472704 # 1) ((-8579357290140795) # 1125899906842624) (29165300 # 1)) (Arr (4529848320000001 # 8388608) (8178536923304821 # 18014398509481984) (8177198972272641 # 1073741824)) [Decay (444955643184205 # 18014398509481984) (210 # 1); Decay (8784721433148889 # 9007199254740992) (984 # 1); Grow (1 # 1) (4374 # 1)] 1, [Conc 3; Conc 25]) (* r74f 447 1532 *);
   (Falloff (Arr (1121050141079340538345001267319791419392 # 1) ((-2178986035409167) # 281474976710656) (6056673368372987 # 33554432)) (Arr (8265278480149761 # 8192) (5993147299370853 # 18014398509481984) (1333396440161727 # 8388608)) [Decay (444955643184205 # 18014398509481984) (210 # 1); Decay (8784721433148889 # 9007199254740992) (984 # 1); Grow (1 # 1) (4374 # 1)] 1, [Conc 26]) (* r74b 452 1533 *);
   (Simple (Arr (5827411627212801 # 4398046511104) (5697053528623677 # 2251799813685248) (51217100 # 1)), [Conc 3; Conc 25]) (* r75f 453 1534 *);
   (Simple (Arr (627339494776311 # 1125899906842624) (6791131631372579 # 2251799813685248) (1193821791626969 # 67108864)), [Conc 5; Conc 23]) (* r75b 455 1535 *);
   (Falloff (Arr (199000000000000090050102619520630784 # 1) ((-3985685670222889) # 562949953421312) (27972700 # 1)) (Arr (8336000000000001 # 16) ((-4458563631096791) # 4503599627370496) (7098893745520641 # 1073741824)) [Decay (2842672084796257 # 18014398509481984) (125 # 1); Decay (7585863212342863 # 9007199254740992) (2219 # 1); Grow (1 # 1) (6882 # 1)] 1, [Conc 3; Conc 26]) (* r76f 464 1536 *);
   (Falloff (Arr (247240958687266731396991284513017958498304 # 1) ((-1025827808909639) # 140737488355328) (7543835206669855 # 16777216)) (Arr (647299193347064987648 # 1) ((-5399568154422127) # 4503599627370496) (7185451391440415 # 16777216)) [Decay (2842672084796257 # 18014398509481984) (125 # 1); Decay (7585863212342863 # 9007199254740992) (2219 # 1); Grow (1 # 1) (6882 # 1)] 1, [Conc 27]) (* r76b 469 1537 *);
   (Simple (Arr (8388608000000001 # 4194304) (0 # 1) (0 # 1)), [Conc 3; Conc 26]) (* r77f 470 1538 *);
   (Simple (Arr (8395095363274097 # 33554432) (33182265225575 # 70368744177664) (2363522646043833 # 8388608)), [Conc 25; Conc 5]) (* r77b 471 1539 *);
   (Simple (Arr (7902739824640001 # 68719476736) (4278419646001971 # 2251799813685248) (8458025408921601 # 268435456)), [Conc 3; Conc 27]) (* r78f 473 1540 *);
   (Simple (Arr (6089614820527605 # 281474976710656) (2768790345945993 # 1125899906842624) (5761318798882629 # 134217728)), [Conc 5; Conc 26]) (* r78b 475 1541 *);
   (Simple (Arr (6553600000000001 # 65536) (0 # 1) (0 # 1)), [Conc 3; Conc 22]) (* r79f 477 1542 *);
   (Simple (Arr (3976469337056219 # 34359738368) (109846969081361 # 70368744177664) (2408996337073343 # 33554432)), [Conc 9; Conc 12]) (* r79b 478 1543 *);
   (Simple (Arr (6553600000000001 # 131072) (0 # 1) (8985930576691201 # 268435456)), [Conc 3; Conc 24]) (* r80f 480 1544 *);
   (Simple (Arr (5144073566943227 # 134217728) (1344706376014993 # 2251799813685248) (6041118175073021 # 268435456)), [Conc 5; Conc 22]) (* r80b 481 1545 *);
   (Simple (Arr (5924454400000001 # 524288) (0 # 1) (7700930048819199 # 536870912)), [Conc 3; Conc 24]) (* r81f 483 1546 *);
   (Simple (Arr (7104532655023565 # 2199023255552) (221878889701685 # 140737488355328) (2407041581266253 # 16777216)), [Conc 9; Conc 13]) (* r81b 484 1547 *);
   (Simple (Arr (5242880000000001 # 524288) (0 # 1) (0 # 1)), [Conc 3; Conc 31]) (* r82f 486 1548 *);
   (Simple (Arr (390041852861239 # 1048576) (14460991032181 # 35184372088832) (8441593753206453 # 67108864)), [Conc 24; Conc 3]) (* r82b 487 1549 *);
   (Falloff (Arr (5070000000000001572864 # 1) ((-1925288840700887) # 562949953421312) (352954000 # 1)) (Arr (5909874999296001 # 137438953472) (3 # 2) (333079000 # 1)) [Decay (1224979098644775 # 18014398509481984) (197 # 1); Decay (8394709705418605 # 9007199254740992) (1540 # 1); Grow (1 # 1) (10300 # 1)] 1, [Conc 5; Conc 9]) (* r83f 495 1550 *);
   (Falloff (Arr (16124629783100484842424369152 # 1) ((-577328458993243) # 140737488355328) (1489990805056803 # 4194304)) (Arr (8962520850297189 # 65536) (460399934859883 # 562949953421312) (1406629013056803 # 4194304)) [Decay (1224979098644775 # 18014398509481984) (197 # 1); Decay (8394709705418605 # 9007199254740992) (1540 # 1); Grow (1 # 1) (10300 # 1)] 1, [Conc 14]) (* r83b 500 1551 *);
   (Simple (Arr (7421703487488001 # 34359738368) (6800435437329449 # 4503599627370496) (14352500 # 1)), [Conc 4; Conc 5]) (* r84f 501 1552 *);
   (Simple (Arr (5144022646539255 # 2147483648) (197759363314647 # 140737488355328) (2657352786762953 # 33554432)), [Conc 28; Conc 3]) (* r84b 503 1553 *);
   (Falloff (Arr (2355200000000001 # 1024) ((-8106479329266893) # 9007199254740992) ((-7113490) # 1)) (Arr (4849664000000001 # 65536) ((-3332663724254167) # 9007199254740992) (0 # 1)) [Decay (4781021364416519 # 18014398509481984) (94 # 1); Decay (6616688572532733 # 9007199254740992) (1756 # 1); Grow (1 # 1) (5182 # 1)] 1, [Conc 4; Conc 4]) (* r85f 511 1554 *);
   (Falloff (Arr (828463239831313973248 # 1) ((-540582277946099) # 281474976710656) (885927243270009 # 4194304)) (Arr (26654904238050963456 # 1) ((-3131204322315611) # 2251799813685248) (7326107062647753 # 33554432)) [Decay (4781021364416519 # 18014398509481984) (94 # 1); Decay (6616688572532733 # 9007199254740992) (1756 # 1); Grow (1 # 1) (5182 # 1)] 1, [Conc 7]) (* r85b 516 1555 *);
   (Simple (Arr (2512164167142605 # 70368744177664) (5404319552844595 # 2251799813685248) ((-8829090) # 1)), [Conc 4; Conc 4]) (* r86f 517 1556 *);
   (Simple (Arr (365956929998095 # 549755813888) (40993801174029 # 17592186044416) (8576696928165687 # 134217728)), [Conc 28; Conc 1]) (* r86b 519 1557 *);
   (Simple (Arr (7602176000000001 # 524288) (0 # 1) ((-8985930576691201) # 4294967296)), [Conc 4; Conc 6]) (* r87f 521 1558 *);
   (Simple (Arr (3419798937157513 # 131072) (36203052261971 # 140737488355328) (4885093402257711 # 16777216)), [Conc 28; Conc 2]) (* r87b 522 1559 *);
   (Simple (Arr (8388608000000001 # 4194304) (0 # 1) (1786740 # 1)), [Conc 4; Conc 7]) (* r88f 524 1560 *);
   (Simple (Arr (5047577873364655 # 67108864) (35333938348539 # 70368744177664) (8956930684578707 # 67108864)), [Conc 28; Conc 6]) (* r88b 525 1561 *);
   (Simple (Arr (6800000000000001 # 4) (0 # 1) (123063000 # 1)), [Conc 4; Conc 7]) (* r89f 527 1562 *);
   (Simple (Arr (2045841785633939 # 32) (35333938348635 # 70368744177664) (534238835104615 # 2097152)), [Conc 28; Conc 6]) (* r89b 528 1563 *);
   (Simple (Arr (6553600000000001 # 131072) (0 # 1) (0 # 1)), [Conc 4; Conc 30]) (* r90f 530 1564 *);
   (Simple (Arr (1482180364472619 # 128) ((-17911984070509) # 70368744177664) (5451447242787149 # 8388608)), [Conc 9; Conc 3]) (* r90b 531 1565 *);
   (Simple (Arr (7864320000000001 # 262144) (0 # 1) (0 # 1)), [Conc 4; Conc 8]) (* r91f 533 1566 *);
   (Simple (Arr (5138756146237599 # 64) ((-84874698046423) # 140737488355328) (1593590146942991 # 4194304)), [Conc 11; Conc 3]) (* r91b 534 1567 *);
   (Simple (Arr (5242880000000001 # 262144) (0 # 1) (0 # 1)), [Conc 4; Conc 10]) (* r92f 536 1568 *);
   (Simple (Arr (7897740019388857 # 4) ((-53484198835047) # 70368744177664) (5499141745116927 # 16777216)), [Conc 14; Conc 3]) (* r92b 537 1569 *);
   (Simple (Arr (6212240696934401 # 549755813888) (2 # 1) (12553200 # 1)), [Conc 4; Conc 10]) (* r93f 539 1570 *);
   (Simple (Arr (2115916390479759 # 274877906944) (1231527965837623 # 562949953421312) (1488390004173481 # 16777216)), [Conc 28; Conc 8]) (* r93b 540 1571 *);
   (Simple (Arr (7864320000000001 # 262144) (0 # 1) (0 # 1)), [Conc 4; Conc 12]) (* r94f 542 1572 *);
   (Simple (Arr (8637291300472571 # 4) ((-57867209087659) # 70368744177664) (6124982031831463 # 16777216)), [Conc 14; Conc 3]) (* r94b 543 1573 *);
   (Falloff (Arr (4000000000000001768388359618560 # 1) ((-3332663724254167) # 562949953421312) (13139000 # 1)) (Arr (5580000000000001 # 2) ((-6440147467139809) # 4503599627370496) (5565260 # 1)) [Decay (5296233161787703 # 9007199254740992) (195 # 1); Decay (7421932185906577 # 18014398509481984) (5900 # 1); Grow (1 # 1) (6394 # 1)] 1, [Conc 4; Conc 13]) (* r95f 552 1574 *);
   (Falloff (Arr (1192771118887803654744883403044377591808 # 1) ((-950411614815433) # 140737488355328) (6799756624977789 # 16777216)) (Arr (831957855424242824249344 # 1) ((-1274001168400041) # 562949953421312) (6672690353069949 # 16777216)) [Decay (5296233161787703 # 9007199254740992) (195 # 1); Decay (7421932185906577 # 18014398509481984) (5900 # 1); Grow (1 # 1) (6394 # 1)] 1, [Conc 19]) (* r95b 557 1575 *);
   (Simple (Arr (7696581394432001 # 137438953472) (3602879701896397 # 2251799813685248) (22679500 # 1)), [Conc 4; Conc 13]) (* r96f 558 1576 *);
   (Simple (Arr (6178718348479223 # 4398046511104) (1134075654893479 # 562949953421312) (3793121735691507 # 67108864)), [Conc 28; Conc 10]) (* r96b 560 1577 *);
   (Simple (Arr (5152000000000001 # 8) ((-6034823500676465) # 4503599627370496) (6366537397043199 # 1073741824)), [Conc 4; Conc 13]) (* r97f 562 1578 *);
   (Simple (Arr (5672740433862001 # 256) ((-3887465009154979) # 4503599627370496) (5301558241936555 # 2147483648)), [Conc 28; Conc 12]) (* r97b 564 1579 *);
   (Simple (Arr (6871947673600001 # 68719476736) (3602879701896397 # 2251799813685248) (7009010817433601 # 536870912)), [Conc 4; Conc 15]) (* r98f 566 1580 *);
   (Simple (Arr (5599203623990815 # 8796093022208) (70605352462781 # 35184372088832) (4619396459892885 # 67108864)), [Conc 28; Conc 13]) (* r98b 568 1581 *);
   (Simple (Arr (6542094185267201 # 137438953472) (5530420342410969 # 4503599627370496) (292908 # 1)), [Conc 4; Conc 9]) (* r99f 570 1582 *);
   (Simple (Arr (1075981781237921 # 4096) ((-1777449301519) # 35184372088832) (3684041333660003 # 33554432)), [Conc 16; Conc 3]) (* r99b 572 1583 *);
   (Simple (Arr (6553600000000001 # 131072) (0 # 1) (0 # 1)), [Conc 4; Conc 11]) (* r100f 574 1584 *);
   (Simple (Arr (6414488332236591 # 262144) (33644110128241 # 70368744177664) (7250453416851981 # 16777216)), [Conc 9; Conc 28]) (* r100b 575 1585 *);
   (Simple (Arr (7365868912640001 # 2147483648) (5314247560297185 # 4503599627370496) ((-1870430) # 1)), [Conc 4; Conc 14]) (* r101f 577 1586 *);
   (Simple (Arr (8706189539058041 # 137438953472) (429141901263353 # 281474976710656) (4243240981628861 # 33554432)), [Conc 28; Conc 11]) (* r101b 579 1587 *);
   (Simple (Arr (5242880000000001 # 1048576) (0 # 1) (0 # 1)), [Conc 4; Conc 17]) (* r102f 581 1588 *);
   (Simple (Arr (1360666310753763 # 1048576) (2756547482929 # 4398046511104) (6294319631851753 # 16777216)), [Conc 14; Conc 28]) (* r102b 582 1589 *);
   (Simple (Arr (5242880000000001 # 1048576) (0 # 1) (0 # 1)), [Conc 4; Conc 18]) (* r103f 584 1590 *);
   (Simple (Arr (4922784890752009 # 33554432) (79895539196461 # 140737488355328) (6772930889723051 # 16777216)), [Conc 14; Conc 28]) (* r103b 585 1591 *);
   (Simple (Arr (6333186975989761 # 4398046511104) (2 # 1) ((-3514900) # 1)), [Conc 4; Conc 19]) (* r104f 587 1592 *);
   (Simple (Arr (8405540478993275 # 70368744177664) (1185674422423021 # 562949953421312) (5953053982618625 # 67108864)), [Conc 28; Conc 17]) (* r104b 588 1593 *);
   (Simple (Arr (6926923254988801 # 1099511627776) (2 # 1) (6276610 # 1)), [Conc 4; Conc 19]) (* r105f 590 1594 *);
   (Simple (Arr (5082231910580855 # 1099511627776) (1218930343452093 # 562949953421312) (4695706064078151 # 67108864)), [Conc 28; Conc 18]) (* r105b 591 1595 *);
   (Simple (Arr (5242880000000001 # 262144) (0 # 1) (0 # 1)), [Conc 4; Conc 20]) (* r106f 593 1596 *);
   (Simple (Arr (2425014987236277 # 8) ((-209274797386887) # 281474976710656) (3575114031335915 # 16777216)), [Conc 22; Conc 3]) (* r106b 594 1597 *);
   (Simple (Arr (8235807146124663 # 37778931862957161709568) (9 # 2) ((-8985930576691201) # 2147483648)), [Conc 4; Conc 21]) (* r107f 596 1598 *);
   (Simple (Arr (6801323523485221 # 4611686018427387904) (2114370346048801 # 562949953421312) (6475193645516477 # 67108864)), [Conc 24; Conc 3]) (* r107b 598 1599 *);
   (Simple (Arr (4433230883192833 # 8796093022208) (2589569785738035 # 1125899906842624) (56489500 # 1)), [Conc 4; Conc 21]) (* r108f 600 1600 *);
   (Simple (Arr (768929190465083 # 8388608) (1289009184014773 # 1125899906842624) (8421425583039233 # 268435456)), [Conc 31; Conc 3]) (* r108b 602 1601 *);
   (Simple (Arr (33700 # 1) (2 # 1) (58581700 # 1)), [Conc 4; Conc 21]) (* r109f 604 1602 *);
   (Simple (Arr (1124731912870779 # 8796093022208) (1402704674865611 # 562949953421312) (4550024078460091 # 137438953472)), [Conc 28; Conc 20]) (* r109b 605 1603 *);
   (Simple (Arr (2280903011226039 # 4722366482869645213696) (4 # 1) ((-8985941314109439) # 1073741824)), [Conc 4; Conc 21]) (* r110f 607 1604 *);
   (Simple (Arr (4517635976014247 # 4835703278458516698824704) (1360205464072415 # 281474976710656) (7429966356434369 # 33554432)), [Conc 9; Conc 13]) (* r110b 609 1605 *);
   (Simple (Arr (5242880000000001 # 1048576) (0 # 1) (0 # 1)), [Conc 4; Conc 23]) (* r111f 611 1606 *);
   (Simple (Arr (7666142694814999 # 131072) (10346527074565 # 140737488355328) (5891034764012329 # 16777216)), [Conc 21; Conc 28]) (* r111b 612 1607 *);
   (Simple (Arr (7916483719987201 # 2199023255552) (2 # 1) (10461000 # 1)), [Conc 4; Conc 25]) (* r112f 614 1608 *);
   (Simple (Arr (590688518262933 # 35184372088832) (20943788376905 # 8796093022208) (2810251822522311 # 67108864)), [Conc 28; Conc 23]) (* r112b 615 1609 *);
   (Simple (Arr (7784542324654081 # 2199023255552) (2386907802506363 # 1125899906842624) (3640430 # 1)), [Conc 4; Conc 27]) (* r113f 617 1610 *);
   (Simple (Arr (8315234315341857 # 1125899906842624) (1449227186317849 # 562949953421312) (2680991885974101 # 33554432)), [Conc 28; Conc 26]) (* r113b 619 1611 *);
   (Simple (Arr (7864320000000001 # 1048576) (0 # 1) (8985941314109439 # 1073741824)), [Conc 4; Conc 24]) (* r114f 621 1612 *);
   (Simple (Arr (8556924205324411 # 134217728) (138579808797967 # 281474976710656) (8353887669386133 # 134217728)), [Conc 28; Conc 22]) (* r114b 622 1613 *);
   (Simple (Arr (8724152320000001 # 67108864) (0 # 1) ((-6820580) # 1)), [Conc 6; Conc 6]) (* r115f 624 1614 *);
   (Simple (Arr (6522179770741391 # 1048576) ((-34464824435137) # 140737488355328) (5193016402877635 # 33554432)), [Conc 7; Conc 2]) (* r115b 625 1615 *);
   (Simple (Arr (6881280000000001 # 16384) (0 # 1) (50212800 # 1)), [Conc 6; Conc 6]) (* r116f 627 1616 *);
   (Simple (Arr (643055960724013 # 32) ((-8616206108761) # 35184372088832) (3553369536908933 # 16777216)), [Conc 7; Conc 2]) (* r116b 628 1617 *);
   (Simple (Arr (5242880000000001 # 262144) (0 # 1) (0 # 1)), [Conc 6; Conc 10]) (* r117f 630 1618 *);
   (Simple (Arr (6189891243374027 # 16384) (33003437393 # 8796093022208) (7980782904775005 # 16777216)), [Conc 14; Conc 4]) (* r117b 631 1619 *);
   (Simple (Arr (8388608000000001 # 8388608) (0 # 1) (0 # 1)), [Conc 6; Conc 13]) (* r118f 633 1620 *);
   (Simple (Arr (4631334356145865 # 16384) ((-5259594055157) # 35184372088832) (1992188583322261 # 8388608)), [Conc 15; Conc 2]) (* r118b 634 1621 *);
   (Simple (Arr (4954521600000001 # 131072) (0 # 1) (0 # 1)), [Conc 6; Conc 13]) (* r119f 636 1622 *);
   (Simple (Arr (2500601124619649 # 4096) ((-84114207373551) # 562949953421312) (3551267157405673 # 33554432)), [Conc 18; Conc 4]) (* r119b 637 1623 *);
   (Simple (Arr (4915200000000001 # 32768) (0 # 1) (6627127826841601 # 67108864)), [Conc 6; Conc 9]) (* r120f 639 1624 *);
   (Simple (Arr (2534366947640547 # 16) ((-72438980237893) # 140737488355328) (5975529602414431 # 16777216)), [Conc 16; Conc 4]) (* r120b 640 1625 *);
   (Simple (Arr (6157265115545601 # 1099511627776) (2 # 1) (50212800 # 1)), [Conc 6; Conc 14]) (* r121f 642 1626 *);
   (Simple (Arr (3023701161588323 # 1099511627776) (1037231257544171 # 562949953421312) (1572351884546639 # 33554432)), [Conc 7; Conc 11]) (* r121b 643 1627 *);
   (Simple (Arr (7602176000000001 # 131072) (0 # 1) (2410220 # 1)), [Conc 30; Conc 2]) (* r122f 645 1628 *);
   (Simple (Arr (3490989340764745 # 131072) (12824934802451 # 70368744177664) (2431248099810277 # 4194304)), [Conc 9; Conc 1]) (* r122b 646 1629 *);
   (Simple (Arr (6553600000000001 # 131072) (0 # 1) (0 # 1)), [Conc 30; Conc 10]) (* r123f 648 1630 *);
   (Simple (Arr (1810903771245753 # 2) ((-17764310888133) # 17592186044416) (2748720999493591 # 8388608)), [Conc 20; Conc 3]) (* r123b 649 1631 *);
   (Simple (Arr (6553600000000001 # 131072) (0 # 1) (0 # 1)), [Conc 30; Conc 13]) (* r124f 651 1632 *);
   (Simple (Arr (5986688036755140 # 1) ((-38244186688981) # 35184372088832) (7047505974324151 # 16777216)), [Conc 21; Conc 3]) (* r124b 652 1633 *);
   (Simple (Arr (8794931200000001 # 131072) (0 # 1) (0 # 1)), [Conc 8; Conc 2]) (* r125f 654 1634 *);
   (Simple (Arr (5834300060834599 # 16384) ((-23400860300553) # 140737488355328) (322251357493205 # 1048576)), [Conc 11; Conc 1]) (* r125b 655 1635 *);
   (Simple (Arr (7077888000000001 # 65536) (0 # 1) (13013500 # 1)), [Conc 8; Conc 5]) (* r126f 657 1636 *);
   (Simple (Arr (900187022369279 # 512) ((-1317160283220561) # 4503599627370496) (3638968944027491 # 2147483648)), [Conc 10; Conc 3]) (* r126b 658 1637 *);
   (Simple (Arr (5987368960000001 # 1048576) (0 # 1) ((-3159220) # 1)), [Conc 8; Conc 28]) (* r127f 660 1638 *);
   (Simple (Arr (6620011099333719 # 8) ((-133375412418825) # 140737488355328) (2084178286251567 # 8388608)), [Conc 14; Conc 3]) (* r127b 661 1639 *);
   (Simple (Arr (5242880000000001 # 131072) (0 # 1) (0 # 1)), [Conc 8; Conc 10]) (* r128f 663 1640 *);
   (Simple (Arr (1079726730469097728 # 1) ((-24134773594957) # 17592186044416) (1150205491215365 # 2097152)), [Conc 21; Conc 3]) (* r128b 664 1641 *);
   (Simple (Arr (7864320000000001 # 262144) (0 # 1) (0 # 1)), [Conc 8; Conc 13]) (* r129f 666 1642 *);
   (Simple (Arr (3473431175328833 # 2) ((-18135722934925) # 17592186044416) (7756781458722893 # 33554432)), [Conc 23; Conc 3]) (* r129b 667 1643 *);
   (Simple (Arr (7864320000000001 # 131072) (0 # 1) (0 # 1)), [Conc 8; Conc 15]) (* r130f 669 1644 *);
   (Simple (Arr (4741207060152583 # 1) ((-141469992316629) # 140737488355328) (8574303514470573 # 33554432)), [Conc 25; Conc 3]) (* r130b 670 1645 *);
   (Falloff (Arr (26900000000000007340032 # 1) ((-2105432825795707) # 562949953421312) (8101010 # 1)) (Arr (6553600000000001 # 131072) (0 # 1) (0 # 1)) [Decay (3821754643786603 # 9007199254740992) (237 # 1); Decay (5185444610954389 # 9007199254740992) (1652 # 1); Grow (1 # 1) (5069 # 1)] 1, [Conc 8; Conc 9]) (* r131f 678 1646 *);
   (Falloff (Arr (121305245450664219353122758197248 # 1) ((-364578104471481) # 70368744177664) (5381742522265515 # 16777216)) (Arr (225474433923167682560 # 1) ((-811192009976141) # 562949953421312) (2622915063838677 # 8388608)) [Decay (3821754643786603 # 9007199254740992) (237 # 1); Decay (5185444610954389 # 9007199254740992) (1652 # 1); Grow (1 # 1) (5069 # 1)] 1, [Conc 22]) (* r131b 683 1647 *);
   (Simple (Arr (6225920000000001 # 32768) (0 # 1) (8869120888012801 # 134217728)), [Conc 8; Conc 16]) (* r132f 684 1648 *);
   (Simple (Arr (6183754673679939 # 67108864) (95060734860081 # 140737488355328) (705736776590969 # 2097152)), [Conc 9; Conc 11]) (* r132b 685 1649 *);
   (Simple (Arr (6199705600000001 # 65536) (0 # 1) ((-4627762836930561) # 2147483648)), [Conc 8; Conc 14]) (* r133f 687 1650 *);
   (Simple (Arr (174988440553510368 # 1) ((-190835902176335) # 140737488355328) (1338837195362999 # 4194304)), [Conc 24; Conc 3]) (* r133b 688 1651 *);
   (Simple (Arr (6553600000000001 # 131072) (0 # 1) (0 # 1)), [Conc 8; Conc 22]) (* r134f 690 1652 *);
   (Simple (Arr (583075899928457 # 512) (2231216112229 # 17592186044416) (2757995596243535 # 4194304)), [Conc 21; Conc 9]) (* r134b 691 1653 *);
   (Simple (Arr (5242880000000001 # 1048576) (0 # 1) (6276610 # 1)), [Conc 10; Conc 2]) (* r135 693 1654 *);
   (Simple (Arr (4398046511104001 # 8796093022208) (2 # 1) (30253200 # 1)), [Conc 10; Conc 5]) (* r136f 694 1655 *);
   (Simple (Arr (3797157035668859 # 17179869184) (833527201015901 # 562949953421312) (8221314465454607 # 134217728)), [Conc 13; Conc 3]) (* r136b 695 1656 *);
   (Simple (Arr (6553600000000001 # 4096) (0 # 1) (49978500 # 1)), [Conc 10; Conc 10]) (* r137f 697 1657 *);
   (Simple (Arr (2652985115534120960 # 1) ((-75958464954467) # 70368744177664) (5115022437559889 # 8388608)), [Conc 21; Conc 5]) (* r137b 698 1658 *);
   (Simple (Arr (5242880000000001 # 131072) (0 # 1) (0 # 1)), [Conc 10; Conc 13]) (* r138f 700 1659 *);
   (Simple (Arr (338252830427532992 # 1) ((-43076101512617) # 35184372088832) (4629116486589141 # 16777216)), [Conc 25; Conc 3]) (* r138b 701 1660 *);
   (Simple (Arr (5409597208657921 # 2199023255552) (2 # 1) (34605000 # 1)), [Conc 10; Conc 15]) (* r139f 703 1661 *);
   (Simple (Arr (1372621583365873 # 2199023255552) (1121509891353917 # 562949953421312) (3794446091830305 # 67108864)), [Conc 13; Conc 13]) (* r139b 704 1662 *);
   (Falloff (Arr (2690000000000001143501488128 # 1) ((-5753348523965809) # 1125899906842624) (7969392348364801 # 268435456)) (Arr (6794772480000001 # 8388608) (1 # 2) (18871700 # 1)) [Decay (230415415935343 # 562949953421312) (275 # 1); Decay (332534537485969 # 562949953421312) (1226 # 1); Grow (1 # 1) (5185 # 1)] 1, [Conc 10; Conc 9]) (* r140f 712 1663 *);
   (Falloff (Arr (972105199655920243817174847717174673408 # 1) ((-241212364409987) # 35184372088832) (6117868780092123 # 16777216)) (Arr (292715692089700876288 # 1) ((-1402497183732463) # 1125899906842624) (2968198172753261 # 8388608)) [Decay (230415415935343 # 562949953421312) (275 # 1); Decay (332534537485969 # 562949953421312) (1226 # 1); Grow (1 # 1) (5185 # 1)] 1, [Conc 24]) (* r140b 717 1664 *);
   (Simple (Arr (7864320000000001 # 262144) (0 # 1) (0 # 1)), [Conc 10; Conc 22]) (* r141f 718 1665 *);
   (Simple (Arr (1303885847486579 # 32768) (8477554143005 # 35184372088832) (6418729877244057 # 16777216)), [Conc 9; Conc 23]) (* r141b 719 1666 *);
   (Simple (Arr (7864320000000001 # 524288) (0 # 1) (2510640 # 1)), [Conc 12; Conc 29]) (* r142f 721 1667 *);
   (Simple (Arr (5733827867504493 # 524288) ((-70128164041883) # 1125899906842624) (1335923672585579 # 33554432)), [Conc 29; Conc 10]) (* r142b 722 1668 *);
   (Simple (Arr (7340032000000001 # 262144) (0 # 1) (0 # 1)), [Conc 12; Conc 2]) (* r144f 724 1669 *);
   (Simple (Arr (100299620571509 # 134217728) (575171671059 # 2199023255552) (1183983043623775 # 4194304)), [Conc 9; Conc 4; Conc 3]) (* r144b 725 1670 *);
   (Simple (Arr (6291456000000001 # 524288) (0 # 1) (0 # 1)), [Conc 12; Conc 2]) (* r145f 727 1671 *);
   (Simple (Arr (1740930042727503 # 2097152) (35673958429983 # 70368744177664) (1636235376713239 # 2097152)), [Conc 28; Conc 9]) (* r145b 728 1672 *);
   (Simple (Arr (4587520000000001 # 65536) (0 # 1) (0 # 1)), [Conc 12; Conc 5]) (* r146f 730 1673 *);
   (Simple (Arr (5775507884142279 # 256) ((-327436787847873) # 562949953421312) (4583760495220605 # 67108864)), [Conc 3; Conc 13]) (* r146b 731 1674 *);
   (Falloff (Arr (188000000000000045396606022844416 # 1) ((-7160723407519089) # 1125899906842624) (21089400 # 1)) (Arr (7712000000000001 # 16) ((-5224175567749775) # 4503599627370496) (4791140 # 1)) [Decay (894640065977149 # 2251799813685248) (208 # 1); Decay (1357159747708099 # 2251799813685248) (3922 # 1); Grow (1 # 1) (10180 # 1)] 1, [Conc 12; Conc 28]) (* r147f 740 1675 *);
   (Falloff (Arr (1629250613834492872819285855214741131100160 # 1) ((-1079441062551789) # 140737488355328) (3495600463063929 # 8388608)) (Arr (4177121254618221152043008 # 1) ((-2780848984832667) # 1125899906842624) (6717761497683697 # 16777216)) [Decay (894640065977149 # 2251799813685248) (208 # 1); Decay (1357159747708099 # 2251799813685248) (3922 # 1); Grow (1 # 1) (10180 # 1)] 1, [Conc 19]) (* r147b 745 1676 *);
   (Simple (Arr (7864320000000001 # 262144) (0 # 1) (0 # 1)), [Conc 12; Conc 28]) (* r148f 746 1677 *);
   (Simple (Arr (2866913933750663 # 131072) ((-35064082020939) # 562949953421312) (1251680573429089 # 33554432)), [Conc 28; Conc 10]) (* r148b 747 1678 *);
   (Simple (Arr (6291456000000001 # 524288) (0 # 1) ((-2385110) # 1)), [Conc 12; Conc 13]) (* r149f 749 1679 *);
   (Simple (Arr (73985424246426336 # 1) ((-181070426555703) # 140737488355328) (2607470633824957 # 8388608)), [Conc 25; Conc 3]) (* r149b 750 1680 *);
   (Simple (Arr (8388608000000001 # 524288) (0 # 1) ((-2385110) # 1)), [Conc 12; Conc 15]) (* r150f 752 1681 *);
   (Simple (Arr (6207536190314573 # 2097152) ((-78908195019681) # 1125899906842624) (3815442977353303 # 67108864)), [Conc 13; Conc 13]) (* r150b 753 1682 *);
   (Simple (Arr (4718592000000001 # 524288) (0 # 1) (0 # 1)), [Conc 12; Conc 9]) (* r151f 755 1683 *);
   (Simple (Arr (6880593441002473 # 1048576) ((-70128164041897) # 1125899906842624) (2503361146858185 # 67108864)), [Conc 9; Conc 10]) (* r151b 756 1684 *);
   (Simple (Arr (7340032000000001 # 1048576) (0 # 1) (0 # 1)), [Conc 12; Conc 16]) (* r152f 758 1685 *);
   (Simple (Arr (5351572676334569 # 1048576) ((-70128164041879) # 1125899906842624) (5006722293716349 # 134217728)), [Conc 16; Conc 10]) (* r152b 759 1686 *);
   (Simple (Arr (7340032000000001 # 524288) (0 # 1) (0 # 1)), [Conc 12; Conc 16]) (* r153f 761 1687 *);
   (Simple (Arr (6126835652957537 # 33554432) (64201014731089 # 140737488355328) (4287875545785603 # 16777216)), [Conc 14; Conc 9]) (* r153b 762 1688 *);
   (Simple (Arr (5242880000000001 # 131072) (0 # 1) ((-4942261817180159) # 2147483648)), [Conc 12; Conc 27]) (* r154f 764 1689 *);
   (Simple (Arr (5086209764873945 # 2097152) ((-6323263187769) # 281474976710656) (5195467860644507 # 67108864)), [Conc 26; Conc 13]) (* r154b 765 1690 *);
   (Simple (Arr (4666163200000001 # 131072) (0 # 1) (127541000 # 1)), [Conc 13; Conc 2]) (* r155f 767 1691 *);
   (Simple (Arr (6101152959467817 # 1024) ((-134102333531365) # 281474976710656) (1723491656161213 # 134217728)), [Conc 18; Conc 1]) (* r155b 768 1692 *);
   (Simple (Arr (4844421120000001 # 2097152) (0 # 1) (5704669514956801 # 67108864)), [Conc 13; Conc 2]) (* r156f 770 1693 *);
   (Simple (Arr (2551719176517935 # 4194304) (22663935091281 # 140737488355328) (2527268576796097 # 8388608)), [Conc 14; Conc 4]) (* r156b 771 1694 *);
   (Simple (Arr (6896136929411073 # 281474976710656) (5561945539802563 # 2251799813685248) (21675200 # 1)), [Conc 13; Conc 7]) (* r157f 773 1695 *);
   (Simple (Arr (636594085277763 # 4398046511104) (1444192177808747 # 562949953421312) (1637088133543643 # 16777216)), [Conc 15; Conc 6]) (* r157b 775 1696 *);
   (Falloff (Arr (340000000000000159045490245048991744 # 1) ((-7915076345103647) # 1125899906842624) (11557300 # 1)) (Arr (8665600000000001 # 128) ((-5314247560297185) # 4503599627370496) (5876803751116801 # 2147483648)) [Decay (1715871458028159 # 4503599627370496) (5150992073805005 # 70368744177664); Decay (2787728169342337 # 4503599627370496) (1180 # 1); Grow (1 # 1) (9999 # 1)] 1, [Conc 13; Conc 13]) (* r158f 784 1697 *);
   (Falloff (Arr (64597135449148706982706504711981035020888309760 # 1) ((-37011459204275) # 4398046511104) (6650401852554325 # 16777216)) (Arr (12862429617374605709672448 # 1) ((-2888419101265049) # 1125899906842624) (6502415063383125 # 16777216)) [Decay (1715871458028159 # 4503599627370496) (5150992073805005 # 70368744177664); Decay (2787728169342337 # 4503599627370496) (1180 # 1); Grow (1 # 1) (9999 # 1)] 1, [Conc 27]) (* r158b 789 1698 *);
   (Simple (Arr (7172259840000001 # 1048576) (3602879701896397 # 36028797018963968) (5953187060121601 # 134217728)), [Conc 13; Conc 13]) (* r159f 790 1699 *);
   (Simple (Arr (1045979328823548 # 1) ((-2424032179348801) # 2251799813685248) (31529934981527 # 4194304)), [Conc 26; Conc 3]) (* r159b 792 1700 *);
   (Simple (Arr (6941573120000001 # 262144) (0 # 1) (0 # 1)), [Conc 13; Conc 11]) (* r160f 794 1701 *);
   (Simple (Arr (4169304152457883 # 2048) (10046791773897 # 140737488355328) (394664743120223 # 1048576)), [Conc 9; Conc 15]) (* r160b 795 1702 *);
   (Simple (Arr (467248461339689 # 140737488355328) (6327557476455547 # 2251799813685248) (6582198442393601 # 268435456)), [Conc 13; Conc 14]) (* r161f 797 1703 *);
   (Simple (Arr (5422450315379733 # 562949953421312) (1546926512673239 # 562949953421312) (814285487329265 # 8388608)), [Conc 15; Conc 11]) (* r161b 799 1704 *);
   (Simple (Arr (8246337208320001 # 274877906944) (3 # 2) (41593000 # 1)), [Conc 13; Conc 19]) (* r162f 801 1705 *);
   (Simple (Arr (6716267892559559 # 17179869184) (675233731782299 # 562949953421312) (2618461900665367 # 33554432)), [Conc 15; Conc 17]) (* r162b 802 1706 *);
   (Simple (Arr (5497558138880001 # 549755813888) (3 # 2) (41593000 # 1)), [Conc 13; Conc 19]) (* r163f 804 1707 *);
   (Simple (Arr (2475184178120583 # 2147483648) (708489652811299 # 562949953421312) (6644957539691199 # 134217728)), [Conc 15; Conc 18]) (* r163b 805 1708 *);
   (Simple (Arr (7986852464164865 # 35184372088832) (2 # 1) (38496500 # 1)), [Conc 13; Conc 25]) (* r164f 807 1709 *);
   (Simple (Arr (5851206663188707 # 35184372088832) (4445746968767089 # 2251799813685248) (7587298171845999 # 536870912)), [Conc 15; Conc 23]) (* r164b 808 1710 *);
   (Simple (Arr (3375500697272321 # 549755813888) (7836263351624663 # 4503599627370496) (43727000 # 1)), [Conc 13; Conc 27]) (* r165f 810 1711 *);
   (Simple (Arr (2212601467833499 # 1099511627776) (1006340490087663 # 562949953421312) (8617755677182335 # 134217728)), [Conc 15; Conc 26]) (* r165b 812 1712 *);
   (Simple (Arr (6000000000000001 # 4) ((-1) # 1) (4773782329753601 # 67108864)), [Conc 11; Conc 28]) (* r166f 814 1713 *);
   (Simple (Arr (2320034840785263 # 8192) ((-6911116672699649) # 9007199254740992) (2878341122547831 # 536870912)), [Conc 28; Conc 9; Conc 3]) (* r166b 816 1714 *);
   (Simple (Arr (5984000000000001 # 32) ((-1) # 1) (4773782329753601 # 67108864)), [Conc 11; Third 1]) (* r167f 818 1715 *);
   (Simple (Arr (4627696162419599 # 131072) ((-3455558336349815) # 4503599627370496) (2878341122547795 # 536870912)), [Conc 9; Conc 3; Third 1]) (* r167b 820 1716 *);
   (Simple (Arr (7051673600000001 # 524288) (0 # 1) (1673760 # 1)), [Conc 11; Conc 2]) (* r168f 822 1717 *);
   (Simple (Arr (7671523893488489 # 2097152) (15542583997267 # 70368744177664) (4716679512662409 # 33554432)), [Conc 9; Conc 6]) (* r168b 823 1718 *);
   (Simple (Arr (4718592000000001 # 262144) (0 # 1) (3765960 # 1)), [Conc 17; Conc 2]) (* r169f 825 1719 *);
   (Simple (Arr (1361135912597911 # 524288) (208025868767057 # 562949953421312) (359326815661551 # 4194304)), [Conc 14; Conc 6]) (* r169b 826 1720 *);
   (Simple (Arr (2170217827590729 # 5070602400912917605986812821504) (4278419646001971 # 562949953421312) ((-14770900) # 1)), [Conc 18; Conc 2]) (* r170f 828 1721 *);
   (Simple (Arr (4529826988372771 # 649037107316853453566312041152512) (2226594796869949 # 281474976710656) (6419686465342865 # 67108864)), [Conc 14; Conc 6]) (* r170b 830 1722 *);
   (Simple (Arr (5242880000000001 # 524288) (0 # 1) ((-3159220) # 1)), [Conc 20; Conc 2]) (* r171f 832 1723 *);
   (Simple (Arr (3327899393686861 # 134217728) (3722382377275 # 4398046511104) (5283019440197481 # 8388608)), [Conc 9; Conc 11]) (* r171b 833 1724 *);
   (Simple (Arr (7623566950400001 # 134217728) (8106479329266893 # 9007199254740992) (8339520 # 1)), [Conc 20; Conc 5]) (* r172f 835 1725 *);
   (Simple (Arr (2719933128440543 # 16384) (41707327551 # 137438953472) (2210077740803901 # 16777216)), [Conc 21; Conc 3]) (* r172b 837 1726 *);
   (Simple (Arr (5862400000000001 # 128) ((-6260003482044989) # 4503599627370496) (4247170 # 1)), [Conc 23; Conc 2]) (* r173f 839 1727 *);
   (Simple (Arr (2284208545093425 # 4096) ((-14093761036225) # 17592186044416) (6195595321742201 # 16777216)), [Conc 14; Conc 11]) (* r173b 841 1728 *);
   (Falloff (Arr (1580000000000000572280190181781818334213627183104 # 1) ((-2617717283409101) # 281474976710656) (409235000 # 1)) (Arr (8000000000000 # 1) (7926335344172073 # 18014398509481984) (363081000 # 1)) [Decay (4782822804267467 # 18014398509481984) (180 # 1); Decay (6615787852607259 # 9007199254740992) (1035 # 1); Grow (1 # 1) (5417 # 1)] 1, [Conc 25]) (* r174f 850 1729 *);
   (Falloff (Arr (2998487443323598581983731777457345190166528 # 1) ((-1264669163119817) # 140737488355328) (1921041506437457 # 8388608)) (Arr (2037722390275555 # 134217728) (1697823575377245 # 2251799813685248) (1533873692805457 # 8388608)) [Decay (4782822804267467 # 18014398509481984) (180 # 1); Decay (6615787852607259 # 9007199254740992) (1035 # 1); Grow (1 # 1) (5417 # 1)] 1, [Conc 21; Conc 5]) (* r174b 855 1730 *);
   (Simple (Arr (7046430720000001 # 8388608) (0 # 1) (16214600 # 1)), [Conc 26; Conc 2]) (* r175f 856 1731 *);
   (Simple (Arr (2716323856630191 # 4194304) (61628936349193 # 562949953421312) (145845980726227 # 2097152)), [Conc 25; Conc 6]) (* r175b 857 1732 *);
   (Simple (Arr (6710886400000001 # 2097152) (0 # 1) (3573480 # 1)), [Conc 22; Conc 2]) (* r176f 859 1733 *);
   (Simple (Arr (7122113673584841 # 72057594037927936) (256504925110521 # 140737488355328) (6000383388863437 # 16777216)), [Conc 9; Conc 9; Conc 4]) (* r176b 860 1734 *);
   (Simple (Arr (5242880000000001 # 524288) (0 # 1) (0 # 1)), [Conc 22; Conc 22]) (* r177f 862 1735 *);
   (Simple (Arr (7108330650758235 # 140737488355328) (110323865695947 # 70368744177664) (2893076128648389 # 8388608)), [Conc 21; Conc 9; Conc 9]) (* r177b 863 1736 *);
   (Simple (Arr (7077888000000001 # 262144) (0 # 1) (1485460 # 1)), [Conc 32; Conc 33]) (* r178f 865 1737 *);
   (Simple (Arr (1407149685087429 # 32768) (17633367342705 # 140737488355328) (5296303074699341 # 16777216)), [Conc 1; Conc 29]) (* r178b 866 1738 *);
   (Simple (Arr (4831838208000001 # 536870912) (1 # 1) (27198600 # 1)), [Conc 32; Conc 2]) (* r179f 868 1739 *);
   (Simple (Arr (7642287634769371 # 8589934592) (307035086564275 # 281474976710656) (5331420169125173 # 33554432)), [Conc 1; Conc 33]) (* r179b 869 1740 *);
   (Simple (Arr (4404019200000001 # 131072) (0 # 1) (1611000 # 1)), [Conc 32; Conc 4]) (* r180f 871 1741 *);
   (Simple (Arr (6861210079994087 # 4096) ((-48693782819097) # 140737488355328) (215922516270103 # 1048576)), [Conc 3; Conc 33]) (* r180b 872 1742 *);
   (Simple (Arr (5872025600000001 # 4194304) (0 # 1) (45233400 # 1)), [Conc 34; Conc 1]) (* r181f 874 1743 *);
   (Simple (Arr (6849256736184113 # 34359738368) (35193318149623 # 35184372088832) (3125572016200397 # 8388608)), [Conc 2; Conc 29]) (* r181b 875 1744 *);
   (Simple (Arr (7602176000000001 # 262144) (0 # 1) (96868900 # 1)), [Conc 34; Conc 1]) (* r182f 877 1745 *);
   (Simple (Arr (8818156902296779 # 34359738368) (8494997511417 # 8796093022208) (8110912150427581 # 33554432)), [Conc 33; Conc 33]) (* r182b 878 1746 *);
   (Simple (Arr (6340608000000001 # 16384) (0 # 1) (79001500 # 1)), [Conc 34; Conc 3]) (* r183f 880 1747 *);
   (Simple (Arr (7508373908699421 # 68719476736) (101123555172217 # 70368744177664) (5599339872129721 # 16777216)), [Conc 4; Conc 29]) (* r183b 881 1748 *);
   (Simple (Arr (8388608000000001 # 4194304) (0 # 1) (88123500 # 1)), [Conc 34; Conc 4]) (* r184f 883 1749 *);
   (Simple (Arr (6337160506854403 # 2147483648) (94750657676085 # 140737488355328) (204421279801477 # 1048576)), [Conc 6; Conc 29]) (* r184b 884 1750 *);
   (Falloff (Arr (5218304000000001 # 8192) (0 # 1) (237005000 # 1)) (Arr (79100000000 # 1) (0 # 1) (234410000 # 1)) [Grow (1 # 1) (0 # 1)] 1, [Conc 34]) (* r185f 889 1751 *);
   (Falloff (Arr (5689937196260101 # 4398046511104) (19736327221493 # 17592186044416) (4465850188836709 # 67108864)) (Arr (2826210563417105 # 17592186044416) (19736327221493 # 17592186044416) (1072925671689177 # 16777216)) [Grow (1 # 1) (0 # 1)] 1, [Conc 1; Conc 29]) (* r185b 894 1752 *);
   (Simple (Arr (4424990720000001 # 2097152) (0 # 1) ((-8626484763688959) # 4294967296)), [Conc 6; Conc 33]) (* r186f 895 1753 *);
   (Simple (Arr (4782388346464001 # 65536) ((-571633904485573) # 2251799813685248) (3839563084524217 # 134217728)), [Conc 4; Conc 35]) (* r186b 896 1754 *);
   (Simple (Arr (6784000000000003 # 64) ((-6350075474592399) # 4503599627370496) (0 # 1)), [Conc 33; Conc 1; Third 1]) (* r187f 898 1755 *);
   (Simple (Arr (2663268435572473987072 # 1) ((-297306937706975) # 140737488355328) (322858600324515 # 1048576)), [Conc 35; Third 1]) (* r187b 899 1756 *);
   (Simple (Arr (8178892800000001 # 2097152) (0 # 1) ((-8626527713361919) # 8589934592)), [Conc 35; Conc 1]) (* r188f 901 1757 *);
   (Simple (Arr (730285632700103 # 67108864) (163499467905655 # 281474976710656) (6338977497849875 # 33554432)), [Conc 2; Conc 33]) (* r188b 902 1758 *);
   (Simple (Arr (8650752000000001 # 65536) (0 # 1) (6469895785021439 # 4294967296)), [Conc 35; Conc 3]) (* r189f 904 1759 *);
   (Simple (Arr (6273379664253491 # 8589934592) (71611785849351 # 70368744177664) (1993271598394657 # 16777216)), [Conc 4; Conc 33]) (* r189b 905 1760 *);
   (Simple (Arr (5242880000000001 # 131072) (0 # 1) (0 # 1)), [Conc 36; Conc 1]) (* r190f 907 1761 *);
   (Simple (Arr (8872508342421361 # 4096) ((-18936592335455) # 70368744177664) (5000558301577803 # 16777216)), [Conc 3; Conc 33]) (* r190b 908 1762 *);
   (Simple (Arr (8388608000000001 # 262144) (0 # 1) (1380850 # 1)), [Conc 36; Conc 3]) (* r191f 910 1763 *);
   (Simple (Arr (3830253939049825 # 65536) (63021118358301 # 562949953421312) (3456652440476883 # 33554432)), [Conc 5; Conc 32]) (* r191b 911 1764 *);
   (Simple (Arr (5242880000000001 # 262144) (0 # 1) (0 # 1)), [Conc 36; Conc 4]) (* r192f 913 1765 *);
   (Simple (Arr (1556532039264189 # 8) ((-207085595324531) # 281474976710656) (5126633589885819 # 67108864)), [Conc 3; Conc 37]) (* r192b 914 1766 *);
   (Simple (Arr (8589934592000001 # 4294967296) (5404319552844595 # 4503599627370496) (0 # 1)), [Conc 36; Conc 4]) (* r193f 916 1767 *);
   (Simple (Arr (1359242049385581 # 33554432) (84943010757025 # 70368744177664) (5586081604532607 # 33554432)), [Conc 28; Conc 32]) (* r193b 917 1768 *);
   (Simple (Arr (8109997766475777 # 17592186044416) (2 # 1) (27198600 # 1)), [Conc 36; Conc 2]) (* r194f 919 1769 *);
   (Simple (Arr (2444377986035531 # 274877906944) (957624067177213 # 562949953421312) (8314181067014271 # 268435456)), [Conc 1; Conc 37]) (* r194b 920 1770 *);
   (Simple (Arr (5629499534213121 # 4398046511104) (3 # 2) (418440 # 1)), [Conc 36; Conc 2]) (* r195f 922 1771 *);
   (Simple (Arr (1208970716605641 # 8796093022208) (117353442803977 # 70368744177664) (947309922990039 # 4194304)), [Conc 4; Conc 33]) (* r195b 923 1772 *);
   (Simple (Arr (7864320000000001 # 524288) (0 # 1) (0 # 1)), [Conc 36; Conc 32]) (* r196f 925 1773 *);
   (Simple (Arr (5291810489223643 # 4096) ((-10119908664113) # 70368744177664) (320998109156181 # 524288)), [Conc 3; Conc 29]) (* r196b 926 1774 *);
   (Simple (Arr (5242880000000001 # 262144) (0 # 1) (57954000 # 1)), [Conc 36; Conc 28]) (* r197f 928 1775 *);
   (Simple (Arr (2245736470867857 # 128) ((-88788553560259) # 140737488355328) (2332167545588067 # 33554432)), [Conc 5; Conc 37]) (* r197b 929 1776 *);
   (Simple (Arr (5662310400000001 # 262144) ((-8286623314361713) # 36028797018963968) (0 # 1)), [Conc 36; Conc 33]) (* r198f 931 1777 *);
   (Simple (Arr (611399775054955 # 16384) ((-3915656830841) # 140737488355328) (6844207327652139 # 16777216)), [Conc 4; Conc 29]) (* r198b 932 1778 *);
   (Simple (Arr (5980160000000001 # 16384) ((-8106479329266893) # 18014398509481984) (0 # 1)), [Conc 36; Conc 33]) (* r199f 934 1779 *);
   (Simple (Arr (2233517531246650624 # 1) ((-14820313413333) # 8796093022208) (2570292685346473 # 16777216)), [Conc 3; Conc 34]) (* r199b 935 1780 *);
   (Simple (Arr (6291456000000001 # 2097152) (0 # 1) (0 # 1)), [Conc 38; Conc 1]) (* r200f 937 1781 *);
   (Simple (Arr (4358772992253079 # 33554432) (70388929880829 # 281474976710656) (2881925691975031 # 67108864)), [Conc 36; Conc 4]) (* r200b 938 1782 *);
   (Simple (Arr (5111808000000001 # 131072) (0 # 1) (0 # 1)), [Conc 38; Conc 1]) (* r201f 940 1783 *);
   (Simple (Arr (8411350973718275 # 512) ((-68348332721851) # 140737488355328) (8008559281860849 # 67108864)), [Conc 37; Conc 3]) (* r201b 941 1784 *);
   (Simple (Arr (5242880000000001 # 131072) (0 # 1) (8199683126067199 # 536870912)), [Conc 38; Conc 3]) (* r202f 943 1785 *);
   (Simple (Arr (6107390352266181 # 2097152) (40129146381817 # 140737488355328) (8872438287808479 # 134217728)), [Conc 5; Conc 36]) (* r202b 944 1786 *);
   (Simple (Arr (6184752906240001 # 68719476736) (3 # 2) ((-1924830) # 1)), [Conc 38; Conc 4]) (* r203f 946 1787 *);
   (Simple (Arr (2496763410820963 # 34359738368) (945924539251459 # 562949953421312) (7633611201418521 # 67108864)), [Conc 28; Conc 36]) (* r203b 947 1788 *);
   (Simple (Arr (330000000 # 1) (0 # 1) (0 # 1)), [Conc 39]) (* r204f 949 1789 *);
   (Simple (Arr (6605665104039351 # 68719476736) (319507038396275 # 1125899906842624) (4183362414475455 # 134217728)), [Conc 3; Conc 29]) (* r204b 950 1790 *);
   (Simple (Arr (8519680000000001 # 65536) ((-7926335344172073) # 72057594037927936) (20838300 # 1)), [Conc 39; Third 1]) (* r205f 952 1791 *);
   (Simple (Arr (5082483804020585 # 134217728) (48914512160965 # 281474976710656) (6980231695857961 # 134217728)), [Conc 3; Conc 29; Third 1]) (* r205b 954 1792 *);
   (Simple (Arr (5242880000000001 # 1048576) (0 # 1) (0 # 1)), [Conc 39; Conc 2]) (* r206f 956 1793 *);
   (Simple (Arr (4399859677329991 # 2097152) (76544514899575 # 281474976710656) (7913352894894601 # 33554432)), [Conc 29; Conc 6]) (* r206b 957 1794 *);
   (Simple (Arr (6553600000000001 # 262144) (0 # 1) (0 # 1)), [Conc 39; Conc 1]) (* r207f 959 1795 *);
   (Simple (Arr (4245897853052555 # 4194304) (5268429523267 # 8796093022208) (3828328237493043 # 8388608)), [Conc 29; Conc 4]) (* r207b 960 1796 *);
   (Simple (Arr (4587520000000001 # 65536) (0 # 1) (0 # 1)), [Conc 39; Conc 1]) (* r208f 962 1797 *);
   (Simple (Arr (6881387099778281 # 4194304) (111681813762759 # 281474976710656) (6499593178671649 # 134217728)), [Conc 33; Conc 36]) (* r208b 963 1798 *);
   (Simple (Arr (6553600000000001 # 131072) (0 # 1) (0 # 1)), [Conc 39; Conc 3]) (* r209f 965 1799 *);
   (Simple (Arr (3569539725579321 # 1048576) (11153694226707 # 17592186044416) (486811858767423 # 1048576)), [Conc 29; Conc 5]) (* r209b 966 1800 *);
   (Simple (Arr (5242880000000001 # 262144) (0 # 1) (0 # 1)), [Conc 39; Conc 4]) (* r210f 968 1801 *);
   (Simple (Arr (989626881054035 # 65536) (37237654855863 # 70368744177664) (2219217785255059 # 4194304)), [Conc 29; Conc 28]) (* r210b 969 1802 *);
   (Simple (Arr (6553600000000001 # 262144) (0 # 1) (0 # 1)), [Conc 39; Conc 13]) (* r211f 971 1803 *);
   (Simple (Arr (1518221295316509 # 512) (17233881229141 # 140737488355328) (124078962720185 # 262144)), [Conc 29; Conc 15]) (* r211b 972 1804 *);
   (Simple (Arr (2867200000000001 # 64) ((-5944751508129055) # 4503599627370496) (3096460 # 1)), [Conc 3; Conc 33; Third 1]) (* r212f 974 1805 *);
   (Simple (Arr (1118758837914207616 # 1) ((-207086605047647) # 140737488355328) (6933572494651343 # 33554432)), [Conc 37; Third 1]) (* r212b 976 1806 *);
   (Simple (Arr (6553600000000001 # 262144) (0 # 1) (0 # 1)), [Conc 37; Conc 1]) (* r213f 978 1807 *);
   (Simple (Arr (4669585110208525 # 33554432) (32834806495679 # 70368744177664) (464862488013293 # 2097152)), [Conc 4; Conc 33]) (* r213b 979 1808 *);
   (Simple (Arr (7549747200000001 # 8388608) (3242591731706757 # 4503599627370496) (2761710 # 1)), [Conc 37; Conc 3]) (* r214f 981 1809 *);
   (Simple (Arr (4522446650738441 # 536870912) (343870572097147 # 281474976710656) (7795133949196797 # 33554432)), [Conc 33; Conc 5]) (* r214b 983 1810 *);
   (Simple (Arr (7146825580544001 # 549755813888) (4278419646001971 # 2251799813685248) ((-3975180) # 1)), [Conc 37; Conc 4]) (* r215f 985 1811 *);
   (Simple (Arr (5934491252865669 # 4398046511104) (161625639102965 # 70368744177664) (1218105529160405 # 4194304)), [Conc 28; Conc 33]) (* r215b 987 1812 *);
   (Simple (Arr (5242880000000001 # 524288) (0 # 1) (54397200 # 1)), [Conc 37; Conc 2]) (* r216f 989 1813 *);
   (Simple (Arr (4838910390097839 # 8388608) (78587992275761 # 562949953421312) (7452427606102505 # 134217728)), [Conc 33; Conc 6]) (* r216b 990 1814 *);
   (Simple (Arr (5046272000000001 # 65536) (0 # 1) (0 # 1)), [Conc 40; Conc 1]) (* r217f 992 1815 *);
   (Simple (Arr (8859712195656229 # 32768) (3265254882987 # 70368744177664) (85380881239111 # 262144)), [Conc 32; Conc 9]) (* r217b 993 1816 *);
   (Simple (Arr (5242880000000001 # 131072) (0 # 1) (0 # 1)), [Conc 40; Conc 4]) (* r218f 995 1817 *);
   (Simple (Arr (103967210365424768 # 1) ((-200955956562749) # 140737488355328) (139841459587031 # 1048576)), [Conc 3; Conc 41]) (* r218b 996 1818 *);
   (Simple (Arr (8388608000000001 # 1048576) (0 # 1) (8379400663859199 # 268435456)), [Conc 40; Conc 28]) (* r219f 998 1819 *);
   (Simple (Arr (618461256834965 # 256) ((-413955686281441) # 562949953421312) (8043855171623609 # 134217728)), [Conc 4; Conc 42]) (* r219b 999 1820 *);
   (Simple (Arr (6438256640000001 # 1048576) (0 # 1) ((-1841140) # 1)), [Conc 40; Conc 2]) (* r220f 1001 1821 *);
   (Simple (Arr (4050459200817343 # 128) ((-557928475267519) # 562949953421312) (3952941128182281 # 67108864)), [Conc 1; Conc 41]) (* r220b 1002 1822 *);
   (Simple (Arr (5189694883102721 # 17592186044416) (2758454771764429 # 1125899906842624) (5032123270430721 # 536870912)), [Conc 40; Conc 5]) (* r221f 1004 1823 *);
   (Simple (Arr (4243104021040691 # 4294967296) (226563680798235 # 140737488355328) (6907618431616661 # 67108864)), [Conc 3; Conc 42]) (* r221b 1006 1824 *);
   (Simple (Arr (6160384000000001 # 262144) (0 # 1) (0 # 1)), [Conc 41; Conc 1]) (* r222f 1008 1825 *);
   (Simple (Arr (3398926503191769 # 2147483648) (158792683509611 # 140737488355328) (6654645211256271 # 16777216)), [Conc 9; Conc 33]) (* r222b 1009 1826 *);
   (Simple (Arr (7077888000000001 # 131072) (0 # 1) (0 # 1)), [Conc 41; Conc 3]) (* r223f 1011 1827 *);
   (Simple (Arr (288450429427731 # 4294967296) (393331736361015 # 281474976710656) (1654086909678481 # 16777216)), [Conc 9; Conc 36]) (* r223b 1012 1828 *);
   (Simple (Arr (5242880000000001 # 2097152) (0 # 1) (0 # 1)), [Conc 41; Conc 4]) (* r224f 1014 1829 *);
   (Simple (Arr (1331793897995093 # 1099511627776) (1830979054989915 # 2251799813685248) ((-7665455390726045) # 268435456)), [Conc 9; Conc 3; Conc 33]) (* r224b 1015 1830 *);
   (Simple (Arr (5242880000000001 # 262144) (0 # 1) (0 # 1)), [Conc 41; Conc 32]) (* r225f 1017 1831 *);
   (Simple (Arr (2300384910402337 # 1073741824) (44106512713069 # 35184372088832) (5963013201338139 # 8388608)), [Conc 9; Conc 29]) (* r225b 1018 1832 *);
   (Simple (Arr (8388608000000001 # 4194304) (0 # 1) (83688100 # 1)), [Conc 41; Conc 2]) (* r226f 1020 1833 *);
   (Simple (Arr (6182462411609735 # 4194304) (10082772087295 # 35184372088832) (8677466159751127 # 16777216)), [Conc 16; Conc 33]) (* r226b 1021 1834 *);
   (Simple (Arr (5079040000000001 # 16384) (0 # 1) (226167000 # 1)), [Conc 41; Third 1]) (* r227f 1023 1835 *);
   (Simple (Arr (6625020247848669 # 2199023255552) (652519895025313 # 562949953421312) ((-3595856518204031) # 536870912)), [Conc 9; Conc 32; Third 1]) (* r227b 1024 1836 *);
   (Simple (Arr (6080000000000001 # 32) ((-3422735716801577) # 2251799813685248) (3096460 # 1)), [Conc 41; Conc 33]) (* r228f 1026 1837 *);
   (Simple (Arr (2891995857948207 # 2) ((-95524129486499) # 70368744177664) (1069082393320075 # 4194304)), [Conc 9; Conc 34]) (* r228b 1028 1838 *);
   (Simple (Arr (7600000000000001 # 2) ((-2) # 1) (3347520 # 1)), [Conc 41; Conc 33]) (* r229f 1030 1839 *);
   (Simple (Arr (45059956350194712 # 1) ((-118145287972825) # 70368744177664) (2597890697370199 # 4194304)), [Conc 16; Conc 29]) (* r229b 1031 1840 *);
   (Simple (Arr (104000000000000028319940608 # 1) ((-3715469692580659) # 1125899906842624) (529746000 # 1)), [Conc 42; Third 1]) (* r230f 1033 1841 *);
   (Simple (Arr (132865432002485698560 # 1) ((-3163853759308345) # 1125899906842624) (3324343869685263 # 1073741824)), [Conc 40; Conc 3; Third 1]) (* r230b 1035 1842 *);
   (Simple (Arr (5713942027226317 # 281474976710656) (5944751508129055 # 2251799813685248) (20838300 # 1)), [Conc 42; Conc 1]) (* r231f 1037 1843 *);
   (Simple (Arr (5151429891449225 # 549755813888) (2271195975410297 # 1125899906842624) (7080703940555493 # 134217728)), [Conc 3; Conc 41]) (* r231b 1039 1844 *);
   (Simple (Arr (713539065961513 # 140737488355328) (5944751508129055 # 2251799813685248) (20838300 # 1)), [Conc 42; Conc 1]) (* r232f 1041 1845 *);
   (Simple (Arr (6711462817285429 # 2305843009213693952) (961130730213617 # 281474976710656) (5078349804495809 # 33554432)), [Conc 9; Conc 36]) (* r232b 1043 1846 *);
   (Simple (Arr (8396661063680001 # 2147483648) (889460926405673 # 562949953421312) (111305000 # 1)), [Conc 42; Conc 1]) (* r233f 1045 1847 *);
   (Simple (Arr (6107902501468823 # 8796093022208) (2685389726660219 # 1125899906842624) (2646464094147303 # 268435456)), [Conc 4; Conc 40]) (* r233b 1047 1848 *);
   (Simple (Arr (1100 # 1) (4571153621781053 # 2251799813685248) (55945500 # 1)), [Conc 42; Conc 4]) (* r234f 1049 1849 *);
   (Simple (Arr (4946208062571211 # 1073741824) (3014739027857685 # 2251799813685248) (1508783142801587 # 67108864)), [Conc 3; Conc 43]) (* r234b 1050 1850 *);
   (Simple (Arr (4953959590107547 # 1125899906842624) (1272266894732165 # 562949953421312) (26780200 # 1)), [Conc 42; Conc 4]) (* r235 1052 1851 *);
   (Simple (Arr (1441151880758559 # 9007199254740992) (5764607523034235 # 2251799813685248) (37659600 # 1)), [Conc 42; Conc 4]) (* r236f 1054 1852 *);
   (Simple (Arr (611429121688291 # 288230376151711744) (217055950548995 # 70368744177664) (2100908062754961 # 16777216)), [Conc 9; Conc 38]) (* r236b 1056 1853 *);
   (Falloff (Arr (140000000000000049152 # 1) ((-7656119366529843) # 2251799813685248) (8536644785274881 # 1073741824)) (Arr (8650752000000001 # 262144) (0 # 1) (0 # 1)) [Grow (1 # 1) (0 # 1)] 1, [Conc 3; Conc 42]) (* r237f 1062 1854 *);
   (Falloff (Arr (697634254703990300213248 # 1) ((-495519449195067) # 140737488355328) (7387543420717835 # 67108864)) (Arr (1315538880298953 # 8) ((-272191820591229) # 2251799813685248) (6854003121638155 # 67108864)) [Grow (1 # 1) (0 # 1)] 1, [Conc 45]) (* r237b 1067 1855 *);
   (Simple (Arr (7864320000000001 # 131072) (0 # 1) (1673760 # 1)), [Conc 45; Conc 32]) (* r238f 1068 1856 *);
   (Simple (Arr (1082120364444181 # 33554432) (60843698800159 # 70368744177664) (1361913808013565 # 4194304)), [Conc 10; Conc 29]) (* r238b 1069 1857 *);
   (Simple (Arr (8257536000000001 # 131072) (0 # 1) (192566000 # 1)), [Conc 30; Conc 29]) (* r239f 1071 1858 *);
   (Simple (Arr (6868541283050955 # 131072) ((-90352499442123) # 1125899906842624) ((-238991153906499) # 134217728)), [Conc 32; Conc 40]) (* r239b 1072 1859 *);
   (Simple (Arr (6700148981760001 # 2147483648) (7926335344172073 # 9007199254740992) (84232000 # 1)), [Conc 8; Conc 29]) (* r240f 1074 1860 *);
   (Simple (Arr (4647708514000925 # 1048576) (109213984411671 # 562949953421312) (5425088246515915 # 67108864)), [Conc 32; Conc 42]) (* r240b 1076 1861 *);
   (Falloff (Arr (13000000000000004096 # 1) ((-889460926405673) # 281474976710656) (3096460 # 1)) (Arr (6501171200000001 # 2097152) (5404319552844595 # 36028797018963968) (0 # 1)) [Decay (5998794703657501 # 18014398509481984) (235 # 1); Decay (3003900951456121 # 4503599627370496) (2117 # 1); Grow (1 # 1) (4536 # 1)] 1, [Conc 8; Conc 29]) (* r241f 1084 1862 *);
   (Falloff (Arr (82668740778185987319635378176 # 1) ((-2710334014908197) # 562949953421312) (1193961372997175 # 8388608)) (Arr (19713315108644352000 # 1) ((-3387878676334617) # 2251799813685248) (4671945535477979 # 33554432)) [Decay (5998794703657501 # 18014398509481984) (235 # 1); Decay (3003900951456121 # 4503599627370496) (2117 # 1); Grow (1 # 1) (4536 # 1)] 1, [Conc 46]) (* r241b 1089 1863 *);
   (Simple (Arr (5242880000000001 # 524288) (0 # 1) (309646000 # 1)), [Conc 10; Conc 29]) (* r242f 1090 1864 *);
   (Simple (Arr (489268935187469 # 1024) ((-142279028776649) # 281474976710656) (7245665766138171 # 33554432)), [Conc 36; Conc 42]) (* r242b 1091 1865 *);
   (Simple (Arr (6710886400000001 # 67108864) (0 # 1) (271986000 # 1)), [Conc 12; Conc 29]) (* r243f 1093 1866 *);
   (Simple (Arr (3652843561543361 # 1048576) ((-159811069787211) # 281474976710656) (3616843215223595 # 16777216)), [Conc 42; Conc 36]) (* r243b 1094 1867 *);
   (Simple (Arr (4980736000000001 # 262144) (0 # 1) (0 # 1)), [Conc 30; Conc 33]) (* r244f 1096 1868 *);
   (Simple (Arr (6589222288003807 # 262144) (12678609824241 # 281474976710656) (8043143683702173 # 67108864)), [Conc 1; Conc 40]) (* r244b 1097 1869 *);
   (Simple (Arr (7602176000000001 # 262144) (0 # 1) (0 # 1)), [Conc 30; Conc 33]) (* r245f 1099 1870 *);
   (Simple (Arr (551794714051869 # 4096) (12869814678091 # 140737488355328) (3737581160114325 # 8388608)), [Conc 32; Conc 9]) (* r245b 1100 1871 *);
   (Simple (Arr (5373952000000001 # 131072) (0 # 1) (0 # 1)), [Conc 8; Conc 33]) (* r246f 1102 1872 *);
   (Simple (Arr (5928909279658861 # 64) ((-616500986775) # 1099511627776) (2607237397468449 # 8388608)), [Conc 1; Conc 42]) (* r246b 1103 1873 *);
   (Simple (Arr (8493465600000001 # 524288) (0 # 1) (0 # 1)), [Conc 8; Conc 33]) (* r247f 1105 1874 *);
   (Simple (Arr (16896156121862314 # 1) ((-166559598639011) # 140737488355328) (5749954127333515 # 16777216)), [Conc 41; Conc 3]) (* r247b 1106 1875 *);
   (Simple (Arr (6448742400000001 # 262144) (0 # 1) (0 # 1)), [Conc 8; Conc 33]) (* r248f 1108 1876 *);
   (Simple (Arr (5409415535748665 # 4096) ((-72361830454669) # 281474976710656) (5893256844852655 # 33554432)), [Conc 11; Conc 32]) (* r248b 1109 1877 *);
   (Simple (Arr (4960000000000001 # 16) ((-1553741871442821) # 1125899906842624) (5314190 # 1)), [Conc 10; Conc 33]) (* r249f 1111 1878 *);
   (Simple (Arr (1455920921137773019136 # 1) ((-95489073702541) # 35184372088832) (6606772568049761 # 16777216)), [Conc 44; Conc 3]) (* r249b 1113 1879 *);
   (Simple (Arr (4751360000000001 # 16384) ((-1553741871442821) # 2251799813685248) (6829320123187199 # 2147483648)), [Conc 10; Conc 33]) (* r250f 1115 1880 *);
   (Simple (Arr (6128260711528197 # 256) ((-139794415863101) # 140737488355328) (2662698224323705 # 8388608)), [Conc 42; Conc 4]) (* r250b 1117 1881 *);
   (Simple (Arr (4980736000000001 # 131072) ((-3242591731706757) # 9007199254740992) (5211835439513601 # 2147483648)), [Conc 10; Conc 33]) (* r251f 1119 1882 *);
   (Simple (Arr (686396348068207744 # 1) ((-135609357262589) # 70368744177664) (6872517694107605 # 67108864)), [Conc 47; Conc 3]) (* r251b 1121 1883 *);
   (Simple (Arr (4960000000000001 # 16) ((-1553741871442821) # 1125899906842624) (5314190 # 1)), [Conc 12; Conc 33]) (* r252f 1123 1884 *);
   (Simple (Arr (1061503086153417228288 # 1) ((-390722315315399) # 140737488355328) (7232612854764297 # 16777216)), [Conc 44; Conc 3]) (* r252b 1125 1885 *);
   (Simple (Arr (4751360000000001 # 16384) ((-1553741871442821) # 2251799813685248) (6829320123187199 # 2147483648)), [Conc 12; Conc 33]) (* r253f 1127 1886 *);
   (Simple (Arr (4468077602015203 # 256) ((-74280218184169) # 70368744177664) (5951236735361961 # 16777216)), [Conc 42; Conc 4]) (* r253b 1129 1887 *);
   (Simple (Arr (4980736000000001 # 131072) ((-3242591731706757) # 9007199254740992) (5211835439513601 # 2147483648)), [Conc 12; Conc 33]) (* r254f 1131 1888 *);
   (Simple (Arr (500447401517626432 # 1) ((-279984735030407) # 140737488355328) (1171984855120719 # 8388608)), [Conc 47; Conc 3]) (* r254b 1133 1889 *);
   (Simple (Arr (6291456000000001 # 65536) (0 # 1) (120511000 # 1)), [Conc 13; Conc 33]) (* r255f 1135 1890 *);
   (Simple (Arr (6514348547853403 # 32768) (15653383457061 # 140737488355328) (7861663026211955 # 16777216)), [Conc 28; Conc 42]) (* r255b 1136 1891 *);
   (Simple (Arr (8388608000000001 # 8388608) (0 # 1) (91010800 # 1)), [Conc 13; Conc 33]) (* r256f 1138 1892 *);
   (Simple (Arr (8349120030758395 # 2097152) ((-35895535242149) # 140737488355328) (5810253919739751 # 134217728)), [Conc 4; Conc 45]) (* r256b 1139 1893 *);
   (Simple (Arr (5767168000000001 # 262144) (0 # 1) (0 # 1)), [Conc 46; Conc 1]) (* r257f 1141 1894 *);
   (Simple (Arr (8550499002475745 # 35184372088832) (112543062697411 # 70368744177664) (1258578321356349 # 2097152)), [Conc 29; Conc 3; Conc 9]) (* r257b 1142 1895 *);
   (Simple (Arr (8388608000000001 # 4194304) (0 # 1) (0 # 1)), [Conc 46; Conc 1]) (* r258f 1144 1896 *);
   (Simple (Arr (3324793088859263 # 1073741824) (32992564156983 # 35184372088832) (2042147293575061 # 4194304)), [Conc 33; Conc 42]) (* r258b 1145 1897 *);
   (Simple (Arr (6291456000000001 # 524288) (0 # 1) (0 # 1)), [Conc 46; Conc 2]) (* r259f 1147 1898 *);
   (Simple (Arr (704708286544177 # 70368744177664) (418904360447309 # 281474976710656) (1410024476076151 # 8388608)), [Conc 29; Conc 11; Conc 1]) (* r259b 1148 1899 *);
   (Simple (Arr (6291456000000001 # 524288) (0 # 1) (0 # 1)), [Conc 46; Conc 4]) (* r260f 1150 1900 *);
   (Simple (Arr (1388289029067821 # 274877906944) (18497292809723 # 17592186044416) (4038387820032985 # 16777216)), [Conc 29; Conc 11; Conc 3]) (* r260b 1151 1901 *);
   (Simple (Arr (6553600000000001 # 65536) (0 # 1) (0 # 1)), [Conc 46; Conc 3]) (* r261f 1153 1902 *);
   (Simple (Arr (8223760130887501 # 137438953472) (941339670655 # 549755813888) (1185048953797389 # 4194304)), [Conc 29; Conc 10]) (* r261b 1154 1903 *);
   (Simple (Arr (6734508720128001 # 68719476736) (6350075474592399 # 4503599627370496) (35567400 # 1)), [Conc 44; Conc 1]) (* r262f 1156 1904 *);
   (Simple (Arr (187506622703897 # 34359738368) (545151667010507 # 281474976710656) (3377821811109677 # 16777216)), [Conc 16; Conc 36]) (* r262b 1158 1905 *);
   (Simple (Arr (5153960755200001 # 34359738368) (7070651414971679 # 4503599627370496) (184114000 # 1)), [Conc 44; Conc 1]) (* r263f 1160 1906 *);
   (Simple (Arr (8288993497472175 # 562949953421312) (92871616721627 # 35184372088832) (2657286058400473 # 8388608)), [Conc 9; Conc 37]) (* r263b 1162 1907 *);
   (Simple (Arr (2200 # 1) (4751297606875873 # 2251799813685248) (47702200 # 1)), [Conc 44; Conc 1]) (* r264f 1164 1908 *);
   (Simple (Arr (2511988106021347 # 140737488355328) (5669786241278399 # 2251799813685248) (5773860870537279 # 1073741824)), [Conc 4; Conc 41]) (* r264b 1165 1909 *);
   (Simple (Arr (6184752906240001 # 274877906944) (7656119366529843 # 4503599627370496) (15900700 # 1)), [Conc 44; Conc 3]) (* r265f 1167 1910 *);
   (Simple (Arr (6044937618779805 # 1152921504606846976) (3665045384754071 # 1125899906842624) (3922251425302763 # 134217728)), [Conc 9; Conc 38]) (* r265b 1169 1911 *);
   (Simple (Arr (3694359069327361 # 35184372088832) (5 # 2) (55652600 # 1)), [Conc 44; Conc 3]) (* r266f 1171 1912 *);
   (Simple (Arr (6450700059014929 # 4503599627370496) (6626943071677903 # 2251799813685248) (177967709740621 # 8388608)), [Conc 41; Conc 5]) (* r266b 1172 1913 *);
   (Simple (Arr (4535485464576001 # 137438953472) (3 # 2) (15063900 # 1)), [Conc 44; Conc 4]) (* r267f 1174 1914 *);
   (Simple (Arr (1372242309278193 # 274877906944) (1034768838090255 # 562949953421312) (6102811465307785 # 134217728)), [Conc 28; Conc 41]) (* r267b 1175 1915 *);
   (Simple (Arr (3628388371660801 # 1099511627776) (3 # 2) (15063900 # 1)), [Conc 44; Conc 4]) (* r268f 1177 1916 *);
   (Simple (Arr (4666178508876159 # 1099511627776) (500095485033573 # 281474976710656) (1156674369929953 # 8388608)), [Conc 16; Conc 38]) (* r268b 1178 1917 *);
   (Simple (Arr (6041600000000001 # 512) (0 # 1) (354503000 # 1)), [Conc 44; Third 1]) (* r269f 1180 1918 *);
   (Simple (Arr (7534034957779959 # 8796093022208) (6710877288269467 # 4503599627370496) ((-1937355174584223) # 134217728)), [Conc 9; Conc 36; Third 1]) (* r269b 1181 1919 *);
   (Simple (Arr (8601600000000001 # 4096) ((-1553741871442821) # 2251799813685248) (6402507748147199 # 536870912)), [Conc 47; Conc 3]) (* r270f 1183 1920 *);
   (Simple (Arr (8945898355718541 # 16384) ((-64294209127717) # 140737488355328) (5040281662528629 # 16777216)), [Conc 44; Conc 3]) (* r270b 1185 1921 *);
   (Simple (Arr (4529848320000001 # 16777216) (3242591731706757 # 18014398509481984) (4762549648097279 # 536870912)), [Conc 47; Conc 3]) (* r271f 1187 1922 *);
   (Simple (Arr (5426645904429875 # 4398046511104) (406400835446603 # 281474976710656) (935865025633091 # 4194304)), [Conc 42; Conc 4]) (* r271b 1189 1923 *);
   (Simple (Arr (5570560000000001 # 32768) ((-3) # 4) (12092900 # 1)), [Conc 47; Conc 3]) (* r272f 1191 1924 *);
   (Simple (Arr (707820368902997 # 68719476736) (18267310557643 # 17592186044416) (5266600440477061 # 16777216)), [Conc 9; Conc 38]) (* r272b 1192 1925 *);
   (Simple (Arr (5497558138880001 # 274877906944) (2 # 1) (8985941314109439 # 1073741824)), [Conc 43; Conc 3]) (* r273 1194 1926 *);
   (Simple (Arr (4718592000000001 # 524288) (0 # 1) (0 # 1)), [Conc 22; Conc 33]) (* r274f 1196 1927 *);
   (Simple (Arr (8989697367260773 # 65536) ((-19250602119531) # 281474976710656) (3507750414406903 # 16777216)), [Conc 9; Conc 47]) (* r274b 1197 1928 *);
   (Simple (Arr (4997120000000001 # 8192) ((-5584463537939415) # 18014398509481984) (5211856914350079 # 4294967296)), [Conc 13; Conc 32]) (* r275f 1199 1929 *);
   (Simple (Arr (7748579556126115 # 64) ((-256435878903093) # 281474976710656) (5294929742903877 # 33554432)), [Conc 3; Conc 45]) (* r275b 1201 1930 *);
   (Simple (Arr (7759462400000001 # 2097152) (5404319552844595 # 36028797018963968) ((-376596) # 1)), [Conc 13; Conc 32]) (* r276f 1203 1931 *);
   (Simple (Arr (4514853996165253 # 131072) (706116998251 # 35184372088832) (4086678240501661 # 8388608)), [Conc 5; Conc 42]) (* r276b 1205 1932 *);
   (Simple (Arr (540 # 1) (5404319552844595 # 2251799813685248) (41488400 # 1)), [Conc 48; Conc 3]) (* r277f 1207 1933 *);
   (Simple (Arr (807453338493393 # 281474976710656) (6218943506507569 # 2251799813685248) (618997918510243 # 33554432)), [Conc 5; Conc 38]) (* r277b 1208 1934 *);
   (Simple (Arr (6871947673600001 # 137438953472) (3602879701896397 # 2251799813685248) (8581580880609279 # 2147483648)), [Conc 48; Conc 4]) (* r278f 1210 1935 *);
   (Simple (Arr (6477433522379635 # 2199023255552) (522679468740977 # 281474976710656) (6146912898655321 # 134217728)), [Conc 28; Conc 38]) (* r278b 1212 1936 *);
   (Simple (Arr (5167704650547201 # 549755813888) (4368491638549381 # 2251799813685248) (7256132498227199 # 268435456)), [Conc 48; Conc 1]) (* r279f 1214 1937 *);
   (Simple (Arr (4179736070770335 # 140737488355328) (2552080344574885 # 1125899906842624) ((-523086985542181) # 134217728)), [Conc 4; Conc 38]) (* r279b 1216 1938 *);
   (Simple (Arr (5242880000000001 # 524288) (0 # 1) (60046200 # 1)), [Conc 36; Conc 16]) (* r280f 1218 1939 *);
   (Simple (Arr (2365973890287339 # 134217728) (611141081953917 # 1125899906842624) (1807839915219319 # 67108864)), [Conc 9; Conc 37]) (* r280b 1219 1940 *);
   (Simple (Arr (6307840000000001 # 1024) ((-3386706919782613) # 4503599627370496) (1443620 # 1)), [Conc 40; Conc 35]) (* r281f 1221 1941 *);
   (Simple (Arr (5669370893125123 # 64) ((-163566976107247) # 140737488355328) (4229681845938825 # 16777216)), [Conc 33; Conc 41]) (* r281b 1223 1942 *);
   (Simple (Arr (6815744000000001 # 2097152) (0 # 1) ((-2950000) # 1)), [Conc 41; Conc 35]) (* r282f 1225 1943 *);
   (Simple (Arr (773344833385403 # 1024) ((-6919568940301) # 70368744177664) (7979991861855197 # 16777216)), [Conc 16; Conc 34]) (* r282b 1226 1944 *);
   (Simple (Arr (6291456000000001 # 2097152) (0 # 1) (47283800 # 1)), [Conc 32; Conc 16]) (* r283f 1228 1945 *);
   (Simple (Arr (7449456087323123 # 274877906944) (131241650087383 # 140737488355328) (2383916205200615 # 16777216)), [Conc 9; Conc 33]) (* r283b 1229 1946 *);
   (Simple (Arr (4417126400000001 # 131072) (0 # 1) (0 # 1)), [Conc 1; Conc 13]) (* r284 1231 1947 *);
   (Simple (Arr (7366727906099201 # 1099511627776) (1030198414761001 # 562949953421312) (920569 # 1)), [Conc 1; Conc 25]) (* r285f 1232 1948 *);
   (Simple (Arr (3586064651544873 # 68719476736) (1581470598705923 # 1125899906842624) (1967934707647323 # 33554432)), [Conc 49; Conc 3]) (* r285b 1234 1949 *);
   (Simple (Arr (7182745600000001 # 65536) (0 # 1) (0 # 1)), [Conc 1; Conc 26]) (* r286f 1236 1950 *);
   (Simple (Arr (7384474164356697 # 64) ((-36089921380959) # 70368744177664) (5321080883739555 # 16777216)), [Conc 50; Conc 3]) (* r286b 1237 1951 *);
   (Simple (Arr (5120000000000001 # 1024) (0 # 1) (72515700 # 1)), [Conc 4; Conc 6]) (* r287f 1239 1952 *);
   (Simple (Arr (4606410206347811 # 512) (4525381532759 # 17592186044416) (383550390991511 # 1048576)), [Conc 28; Conc 2]) (* r287b 1240 1953 *);
   (Simple (Arr (8589934592000001 # 1073741824) (1 # 2) ((-7343630) # 1)), [Conc 4; Conc 13]) (* r288 1242 1954 *);
   (Falloff (Arr (48200000000000016384 # 1) ((-3152519739159347) # 1125899906842624) (5301707630182399 # 2147483648)) (Arr (8262778880000001 # 4194304) (7746191359077253 # 18014398509481984) ((-1548230) # 1)) [Decay (7602076171001397 # 18014398509481984) (122 # 1); Decay (5206161169240293 # 9007199254740992) (2535 # 1); Grow (1 # 1) (9365 # 1)] 1, [Conc 8; Conc 5]) (* r289f 1250 1955 *);
   (Falloff (Arr (81072637985117278081908736 # 1) ((-229514114344087) # 70368744177664) (7637688010879941 # 16777216)) (Arr (6627099453555229 # 2) ((-569106086459467) # 18014398509481984) (7570293430891461 # 16777216)) [Decay (7602076171001397 # 18014398509481984) (122 # 1); Decay (5206161169240293 # 9007199254740992) (2535 # 1); Grow (1 # 1) (9365 # 1)] 1, [Conc 13]) (* r289b 1255 1956 *);
   (Simple (Arr (6081740800000001 # 1048576) (0 # 1) (6276610 # 1)), [Conc 10; Conc 2]) (* r290 1256 1957 *);
   (Simple (Arr (5033164800000001 # 2097152) (0 # 1) (6276610 # 1)), [Conc 10; Conc 2]) (* r291f 1257 1958 *);
   (Simple (Arr (3848606890423279 # 8192) ((-45494559924197) # 140737488355328) (8772213837908005 # 33554432)), [Conc 14; Conc 1]) (* r291b 1258 1959 *);
   (Simple (Arr (6553600000000001 # 32768) (0 # 1) (45982400 # 1)), [Conc 10; Conc 10]) (* r292 1260 1960 *);
   (Simple (Arr (4576824524800001 # 67108864) (1 # 4) ((-3912420) # 1)), [Conc 12; Conc 28]) (* r293 1261 1961 *);
   (Simple (Arr (5083496448000001 # 16777216) (5224175567749775 # 18014398509481984) (1581523781497651 # 34359738368)), [Conc 23; Conc 2]) (* r294f 1262 1962 *);
   (Simple (Arr (1226199836781079 # 65536) ((-336372311415151) # 2251799813685248) (7105828742009519 # 268435456)), [Conc 49; Conc 1]) (* r294b 1264 1963 *);
   (Simple (Arr (5880188185346049 # 4398046511104) (7250795400066499 # 4503599627370496) ((-6901196400885761) # 4294967296)), [Conc 23; Conc 2]) (* r295f 1266 1964 *);
   (Simple (Arr (2389161821641281 # 274877906944) (802923324258655 # 562949953421312) (1887764543996921 # 33554432)), [Conc 21; Conc 6]) (* r295b 1268 1965 *);
   (Simple (Arr (6123683840000001 # 1048576) (0 # 1) (8123286395289601 # 1073741824)), [Conc 1; Conc 50]) (* r296f 1270 1966 *);
   (Simple (Arr (3451598020514575 # 1073741824) (1179902606714631 # 2251799813685248) (5905284189593593 # 268435456)), [Conc 49; Conc 4]) (* r296b 1271 1967 *);
   (Simple (Arr (6123683840000001 # 1048576) (0 # 1) (8123286395289601 # 1073741824)), [Conc 1; Conc 50]) (* r297 1273 1968 *);
   (Simple (Arr (7890534400000001 # 262144) (0 # 1) (163819000 # 1)), [Conc 2; Conc 50]) (* r298 1274 1969 *);
   (Simple (Arr (4402341478400001 # 2147483648) (5224175567749775 # 4503599627370496) (10063500 # 1)), [Conc 3; Conc 50]) (* r299f 1275 1970 *);
   (Simple (Arr (8344375641649977 # 4398046511104) (1935472646825855 # 1125899906842624) (4346597523455115 # 134217728)), [Conc 5; Conc 49]) (* r299b 1277 1971 *);
   (Simple (Arr (4402341478400001 # 2147483648) (5224175567749775 # 4503599627370496) (10063500 # 1)), [Conc 3; Conc 50]) (* r300 1279 1972 *);
   (Simple (Arr (6289442734080001 # 268435456) (1643813863990231 # 2251799813685248) ((-4657240) # 1)), [Conc 4; Conc 50]) (* r301 1281 1973 *);
   (Simple (Arr (6312427520000001 # 2097152) (0 # 1) (49890600 # 1)), [Conc 6; Conc 50]) (* r302 1283 1974 *);
   (Simple (Arr (5981343255101441 # 2199023255552) (3985685670222889 # 2251799813685248) (24771700 # 1)), [Conc 13; Conc 50]) (* r303 1284 1975 *);
   (Falloff (Arr (1012000000000000509853671016242348032 # 1) ((-8590616289209221) # 1125899906842624) (8657956136550399 # 536870912)) (Arr (8162115584000001 # 16777216) (7602076171001397 # 18014398509481984) ((-7343630) # 1)) [Decay (4818851601286431 # 9007199254740992) (201 # 1); Decay (8376695306909123 # 18014398509481984) (1773 # 1); Grow (1 # 1) (5333 # 1)] 1, [Conc 3; Conc 24]) (* r304f 1293 1976 *);
   (Falloff (Arr (1032272357656466618455047964653892141056 # 1) ((-1068221501059069) # 140737488355328) (676539286575873 # 4194304)) (Arr (508155448663901 # 1024) (8319584662788101 # 18014398509481984) (4624780700604425 # 33554432)) [Decay (4818851601286431 # 9007199254740992) (201 # 1); Decay (8376695306909123 # 18014398509481984) (1773 # 1); Grow (1 # 1) (5333 # 1)] 1, [Conc 49]) (* r304b 1298 1977 *);
   (Simple (Arr (4915200000000001 # 32768) (0 # 1) (0 # 1)), [Conc 1; Conc 49]) (* r305 1299 1978 *);
   (Simple (Arr (4858681753600001 # 268435456) (0 # 1) (0 # 1)), [Conc 2; Conc 49]) (* r306 1300 1979 *);
   (Simple (Arr (6308233216000001 # 268435456) (0 # 1) (0 # 1)), [Conc 2; Conc 49]) (* r307 1301 1980 *);
   (Simple (Arr (5767168000000001 # 262144) (0 # 1) (0 # 1)), [Conc 3; Conc 49]) (* r308f 1302 1981 *);
   (Simple (Arr (8977650111787033 # 274877906944) (734088257061257 # 562949953421312) (6674311380505589 # 134217728)), [Conc 11; Conc 13]) (* r308b 1303 1982 *);
   (Simple (Arr (5767168000000001 # 524288) (0 # 1) (0 # 1)), [Conc 3; Conc 49]) (* r309f 1305 1983 *);
   (Simple (Arr (1321503602043573 # 524288) (43685638922051 # 140737488355328) (4830473421433069 # 16777216)), [Conc 5; Conc 24]) (* r309b 1306 1984 *);
   (Simple (Arr (6291456000000001 # 524288) (0 # 1) (0 # 1)), [Conc 4; Conc 49]) (* r310f 1308 1985 *);
   (Simple (Arr (3996834596558645 # 131072) (14465697410073 # 70368744177664) (739794352771815 # 2097152)), [Conc 24; Conc 28]) (* r310b 1309 1986 *);
   (Simple (Arr (7890534400000001 # 262144) (0 # 1) (0 # 1)), [Conc 4; Conc 49]) (* r311f 1311 1987 *);
   (Simple (Arr (7154317945905823 # 16777216) (373464635970541 # 1125899906842624) (4855140795833755 # 134217728)), [Conc 17; Conc 11]) (* r311b 1312 1988 *);
   (Falloff (Arr (271000000000000073293363189700532761731065415275028876601304228560896 # 1) ((-2367204554136617) # 140737488355328) (54669200 # 1)) (Arr (4944035840000001 # 524288) (0 # 1) (0 # 1)) [Decay (7631799928542043 # 9007199254740992) (291 # 1); Decay (2750798652397899 # 18014398509481984) (2742 # 1); Grow (1 # 1) (7748 # 1)] 1, [Conc 13; Conc 26]) (* r312f 1320 1989 *);
   (Falloff (Arr (1612586227203484293016140379724711751819642966166074560937941354518273149231955968 # 1) ((-2615079738620319) # 140737488355328) (7218907334339823 # 16777216)) (Arr (56113240304534517972992 # 1) ((-123937592241851) # 70368744177664) (393856897337039 # 1048576)) [Decay (7631799928542043 # 9007199254740992) (291 # 1); Decay (2750798652397899 # 18014398509481984) (2742 # 1); Grow (1 # 1) (7748 # 1)] 1, [Conc 51]) (* r312b 1325 1990 *);
   (Simple (Arr (6790583813144577 # 35184372088832) (6034823500676465 # 2251799813685248) (15549200 # 1)), [Conc 1; Conc 51]) (* r313f 1326 1991 *);
   (Simple (Arr (2378104220718233 # 144115188075855872) (7246117798276761 # 2251799813685248) (4604114879044219 # 268435456)), [Conc 52; Conc 4]) (* r313b 1328 1992 *);
   (Simple (Arr (5805421394657281 # 4398046511104) (2859785763380265 # 1125899906842624) (28269800 # 1)), [Conc 3; Conc 51]) (* r314f 1330 1993 *);
   (Simple (Arr (3418457559031571 # 18014398509481984) (1752455181855809 # 562949953421312) (2534026796330243 # 67108864)), [Conc 5; Conc 52]) (* r314b 1332 1994 *);
   (Simple (Arr (8686141859430401 # 274877906944) (8106479329266893 # 4503599627370496) (3908230 # 1)), [Conc 4; Conc 51]) (* r315f 1334 1995 *);
   (Simple (Arr (7090104387279377 # 140737488355328) (1276855239916237 # 562949953421312) (5250675111339531 # 67108864)), [Conc 28; Conc 52]) (* r315b 1336 1996 *);
   (Simple (Arr (6809442636584191 # 18014398509481984) (6124895493223875 # 2251799813685248) (6276610 # 1)), [Conc 52; Conc 7]) (* r316 1338 1997 *);
   (Simple (Arr (1041088118659983 # 1152921504606846976) (8219069319951155 # 2251799813685248) (8035669062451199 # 268435456)), [Conc 13; Conc 51]) (* r317f 1340 1998 *);
   (Simple (Arr (1042957914109923 # 4611686018427387904) (1044673469907739 # 281474976710656) (3254045393688069 # 67108864)), [Conc 15; Conc 52]) (* r317b 1342 1999 *);
   (Falloff (Arr (3000000000000001364612079391304430225319777573128812625920 # 1) ((-8219069319951155) # 562949953421312) (76030600 # 1)) (Arr (5607509301657601 # 2199023255552) (3602879701896397 # 2251799813685248) (23851100 # 1)) [Decay (912654464486631 # 1125899906842624) (277 # 1); Decay (213245442355993 # 1125899906842624) (8748 # 1); Grow (1 # 1) (7891 # 1)] 1, [Conc 13; Conc 25]) (* r318f 1351 2000 *);
   (Falloff (Arr (20514723075006529793153995895863769645875010605431061384392211431424 # 1) ((-2288366469881225) # 140737488355328) (752366255580077 # 4194304)) (Arr (8928007482242841 # 512) ((-134706536398583) # 2251799813685248) (533509570012077 # 4194304)) [Decay (912654464486631 # 1125899906842624) (277 # 1); Decay (213245442355993 # 1125899906842624) (8748 # 1); Grow (1 # 1) (7891 # 1)] 1, [Conc 52]) (* r318b 1356 2001 *);
   (Simple (Arr (6317670400000001 # 65536) (0 # 1) (0 # 1)), [Conc 1; Conc 52]) (* r319f 1357 2002 *);
   (Simple (Arr (3756451262527923 # 1073741824) (88857940400899 # 70368744177664) (5651849565604641 # 16777216)), [Conc 14; Conc 26]) (* r319b 1358 2003 *);
   (Falloff (Arr (44200000000000015778707768421126355204057714284975620096 # 1) ((-7625157119091671) # 562949953421312) (47522300 # 1)) (Arr (4735631360000001 # 131072) (0 # 1) (0 # 1)) [Decay (1542482872374395 # 2251799813685248) (369 # 1); Decay (5674535530486825 # 18014398509481984) (3285 # 1); Grow (1 # 1) (6667 # 1)] 1, [Conc 3; Conc 52]) (* r320f 1366 2004 *);
   (Falloff (Arr (71862994128081214209842651806702040920167399181118030137524224 # 1) ((-968819340400043) # 70368744177664) (1976035793045105 # 4194304)) (Arr (58742307191121576 # 1) ((-125397604108673) # 562949953421312) (1776712820065905 # 4194304)) [Decay (1542482872374395 # 2251799813685248) (369 # 1); Decay (5674535530486825 # 18014398509481984) (3285 # 1); Grow (1 # 1) (6667 # 1)] 1, [Conc 51]) (* r320b 1371 2005 *);
   (Simple (Arr (8928034417541121 # 2199023255552) (4931441591970693 # 2251799813685248) (3724120 # 1)), [Conc 3; Conc 52]) (* r321f 1372 2006 *);
   (Simple (Arr (1278954683264479 # 1152921504606846976) (4197927063637547 # 1125899906842624) (6940970308167571 # 134217728)), [Conc 26; Conc 13]) (* r321b 1374 2007 *);
   (Simple (Arr (6317670400000001 # 262144) (0 # 1) (0 # 1)), [Conc 4; Conc 52]) (* r322f 1376 2008 *);
   (Simple (Arr (8434085404403891 # 134217728) (637494389500141 # 1125899906842624) (4621956798296387 # 134217728)), [Conc 17; Conc 26]) (* r322b 1377 2009 *);
   (Simple (Arr (6845104128000001 # 268435456) (2296835809958953 # 9007199254740992) ((-3945890) # 1)), [Conc 6; Conc 52]) (* r323f 1379 2010 *);
   (Simple (Arr (7544787222790651 # 262144) (12409561706183 # 281474976710656) (1803447042891745 # 8388608)), [Conc 51; Conc 2]) (* r323b 1381 2011 *);
   (Simple (Arr (6317670400000001 # 262144) (0 # 1) (0 # 1)), [Conc 6; Conc 52]) (* r324 1383 2012 *);
   (Simple (Arr (5051514880000001 # 262144) ((-5764607523034235) # 18014398509481984) (0 # 1)), [Conc 13; Conc 52]) (* r325f 1384 2013 *);
   (Simple (Arr (844263494883459 # 1048576) (47312217103357 # 1125899906842624) (748449121127581 # 67108864)), [Conc 26; Conc 26]) (* r325b 1385 2014 *)].

(** Production rates of the species as combinations of rates of reactions, src/equations/ideal_gas_mix/mechanism/Gri30.cpp:2016-2498 *)
Definition gri_production : list (list (Z * N)) :=
  [[] (* AR 2016 *);
   [((-2)%Z, 0%N); (2%Z, 1%N); ((-1)%Z, 2%N); (1%Z, 3%N); ((-1)%Z, 4%N); (1%Z, 5%N); ((-1)%Z, 6%N); (1%Z, 7%N); ((-1)%Z, 8%N); (1%Z, 9%N); ((-1)%Z, 10%N); (1%Z, 11%N); ((-1)%Z, 12%N); (1%Z, 13%N); ((-1)%Z, 14%N); (1%Z, 15%N); ((-1)%Z, 16%N); (1%Z, 17%N); ((-1)%Z, 18%N); (1%Z, 19%N); ((-1)%Z, 20%N); (1%Z, 21%N); ((-1)%Z, 22%N); (1%Z, 23%N); ((-1)%Z, 24%N); (1%Z, 25%N); ((-1)%Z, 26%N); (1%Z, 27%N); ((-1)%Z, 28%N); (1%Z, 29%N); ((-1)%Z, 30%N); (1%Z, 31%N); ((-1)%Z, 32%N); (1%Z, 33%N); ((-1)%Z, 34%N); (1%Z, 35%N); ((-1)%Z, 36%N); (1%Z, 37%N); ((-1)%Z, 38%N); (1%Z, 39%N); ((-1)%Z, 40%N); (1%Z, 41%N); ((-1)%Z, 42%N); (1%Z, 43%N); ((-1)%Z, 44%N); (1%Z, 45%N); ((-1)%Z, 46%N); (1%Z, 47%N); ((-1)%Z, 48%N); (1%Z, 49%N); ((-1)%Z, 50%N); (1%Z, 51%N); ((-1)%Z, 52%N); (1%Z, 53%N); ((-1)%Z, 54%N); (1%Z, 55%N); ((-1)%Z, 56%N); (1%Z, 57%N); ((-1)%Z, 58%N); (1%Z, 59%N); (1%Z, 60%N); ((-1)%Z, 61%N); (1%Z, 72%N); ((-1)%Z, 73%N); (1%Z, 84%N); ((-1)%Z, 85%N); (1%Z, 168%N); ((-1)%Z, 169%N); (1%Z, 240%N); ((-1)%Z, 241%N); (1%Z, 246%N); ((-1)%Z, 247%N); (1%Z, 303%N); ((-1)%Z, 304%N); (1%Z, 349%N); ((-1)%Z, 350%N); (1%Z, 351%N); ((-1)%Z, 352%N); ((-1)%Z, 355%N); (1%Z, 356%N); ((-1)%Z, 357%N); (1%Z, 358%N); (1%Z, 363%N); ((-1)%Z, 364%N); ((-1)%Z, 367%N); (1%Z, 368%N); ((-1)%Z, 369%N); (1%Z, 370%N); ((-1)%Z, 373%N); (1%Z, 374%N); (1%Z, 381%N); ((-1)%Z, 382%N); ((-1)%Z, 393%N); (1%Z, 394%N); ((-1)%Z, 395%N); (1%Z, 396%N); ((-1)%Z, 407%N); (1%Z, 408%N); ((-1)%Z, 409%N); (1%Z, 410%N); ((-1)%Z, 419%N); (1%Z, 420%N); ((-1)%Z, 427%N); (1%Z, 428%N); (1%Z, 433%N); ((-1)%Z, 434%N); ((-1)%Z, 437%N); (1%Z, 438%N); ((-1)%Z, 455%N); (1%Z, 456%N); ((-1)%Z, 457%N); (1%Z, 458%N); ((-1)%Z, 459%N); (1%Z, 460%N); (1%Z, 480%N); ((-1)%Z, 481%N); (1%Z, 484%N); ((-1)%Z, 485%N); ((-1)%Z, 506%N); (1%Z, 507%N); ((-1)%Z, 508%N); (1%Z, 509%N); (1%Z, 510%N); ((-1)%Z, 511%N); ((-1)%Z, 516%N); (1%Z, 517%N); ((-1)%Z, 518%N); (1%Z, 519%N); ((-1)%Z, 520%N); (1%Z, 521%N); ((-1)%Z, 549%N); (1%Z, 550%N); ((-1)%Z, 559%N); ((-1)%Z, 560%N); (1%Z, 561%N); ((-1)%Z, 562%N); (1%Z, 563%N); (1%Z, 570%N); ((-1)%Z, 571%N); (1%Z, 574%N); ((-1)%Z, 575%N); ((-1)%Z, 578%N); (1%Z, 579%N); ((-1)%Z, 580%N); ((-1)%Z, 590%N); ((-1)%Z, 603%N); (1%Z, 604%N); ((-1)%Z, 614%N); (1%Z, 615%N)] (* O 2018 *);
   [(1%Z, 0%N); ((-1)%Z, 1%N); (1%Z, 6%N); ((-1)%Z, 7%N); ((-1)%Z, 60%N); (1%Z, 61%N); ((-1)%Z, 62%N); (1%Z, 63%N); ((-1)%Z, 64%N); (1%Z, 65%N); ((-2)%Z, 66%N); (1%Z, 66%N); ((-1)%Z, 67%N); (2%Z, 67%N); ((-1)%Z, 68%N); (1%Z, 69%N); ((-1)%Z, 70%N); (1%Z, 71%N); ((-1)%Z, 72%N); (1%Z, 73%N); (1%Z, 86%N); ((-1)%Z, 87%N); (1%Z, 170%N); ((-1)%Z, 171%N); (1%Z, 226%N); ((-1)%Z, 227%N); (1%Z, 228%N); ((-1)%Z, 229%N); (1%Z, 232%N); ((-1)%Z, 233%N); ((-1)%Z, 240%N); (1%Z, 241%N); ((-1)%Z, 246%N); (1%Z, 247%N); ((-1)%Z, 266%N); ((-1)%Z, 281%N); (1%Z, 282%N); ((-1)%Z, 283%N); (1%Z, 284%N); ((-1)%Z, 303%N); (1%Z, 304%N); ((-1)%Z, 305%N); (1%Z, 306%N); ((-1)%Z, 329%N); (1%Z, 330%N); ((-1)%Z, 331%N); (1%Z, 332%N); ((-1)%Z, 333%N); (1%Z, 334%N); ((-1)%Z, 335%N); (1%Z, 336%N); ((-1)%Z, 339%N); (1%Z, 340%N); ((-1)%Z, 343%N); (1%Z, 344%N); ((-1)%Z, 345%N); (1%Z, 346%N); ((-1)%Z, 351%N); (1%Z, 352%N); (1%Z, 355%N); ((-1)%Z, 356%N); (1%Z, 369%N); ((-1)%Z, 370%N); ((-1)%Z, 381%N); (1%Z, 382%N); ((-1)%Z, 383%N); (1%Z, 384%N); ((-1)%Z, 405%N); (1%Z, 406%N); ((-1)%Z, 425%N); (1%Z, 426%N); ((-1)%Z, 433%N); (1%Z, 434%N); ((-1)%Z, 445%N); (1%Z, 446%N); ((-1)%Z, 510%N); (1%Z, 511%N); (1%Z, 564%N); ((-1)%Z, 565%N); ((-1)%Z, 569%N); ((-1)%Z, 570%N); (1%Z, 571%N); ((-1)%Z, 574%N); (1%Z, 575%N); ((-1)%Z, 576%N); (1%Z, 577%N); ((-1)%Z, 581%N); ((-1)%Z, 591%N); ((-1)%Z, 592%N); (1%Z, 622%N); ((-1)%Z, 623%N)] (* O2 2043 *);
   [((-1)%Z, 2%N); (1%Z, 3%N); (1%Z, 4%N); ((-1)%Z, 5%N); (1%Z, 10%N); ((-1)%Z, 11%N); (1%Z, 12%N); ((-1)%Z, 13%N); (1%Z, 16%N); ((-1)%Z, 17%N); (1%Z, 18%N); ((-1)%Z, 19%N); (1%Z, 26%N); ((-1)%Z, 27%N); (1%Z, 40%N); ((-1)%Z, 41%N); (1%Z, 46%N); ((-1)%Z, 47%N); (1%Z, 54%N); ((-1)%Z, 55%N); ((-1)%Z, 64%N); (1%Z, 65%N); ((-1)%Z, 66%N); (1%Z, 67%N); ((-1)%Z, 68%N); (1%Z, 69%N); ((-1)%Z, 70%N); (1%Z, 71%N); ((-1)%Z, 72%N); (1%Z, 73%N); ((-2)%Z, 74%N); (2%Z, 75%N); ((-2)%Z, 76%N); (2%Z, 77%N); ((-2)%Z, 78%N); (2%Z, 79%N); ((-2)%Z, 80%N); (2%Z, 81%N); ((-1)%Z, 82%N); (1%Z, 83%N); ((-1)%Z, 84%N); (1%Z, 85%N); ((-1)%Z, 86%N); (1%Z, 87%N); ((-1)%Z, 88%N); (1%Z, 89%N); ((-1)%Z, 90%N); (1%Z, 91%N); ((-1)%Z, 92%N); (1%Z, 93%N); ((-1)%Z, 94%N); (1%Z, 95%N); ((-1)%Z, 96%N); (1%Z, 97%N); ((-1)%Z, 98%N); (1%Z, 99%N); ((-1)%Z, 100%N); (1%Z, 101%N); ((-1)%Z, 102%N); (1%Z, 103%N); ((-1)%Z, 104%N); (1%Z, 105%N); ((-1)%Z, 106%N); (1%Z, 107%N); ((-1)%Z, 108%N); (1%Z, 109%N); ((-1)%Z, 110%N); (1%Z, 111%N); ((-1)%Z, 112%N); (1%Z, 113%N); ((-1)%Z, 114%N); (1%Z, 115%N); ((-1)%Z, 116%N); (1%Z, 117%N); ((-1)%Z, 118%N); (1%Z, 119%N); ((-1)%Z, 120%N); (1%Z, 121%N); ((-1)%Z, 122%N); (1%Z, 123%N); ((-1)%Z, 124%N); (1%Z, 124%N); ((-1)%Z, 125%N); (1%Z, 125%N); ((-1)%Z, 126%N); (1%Z, 127%N); ((-1)%Z, 128%N); (1%Z, 129%N); ((-1)%Z, 130%N); (1%Z, 131%N); ((-1)%Z, 132%N); (1%Z, 133%N); ((-1)%Z, 134%N); (1%Z, 135%N); ((-1)%Z, 136%N); (1%Z, 137%N); ((-1)%Z, 138%N); (1%Z, 139%N); ((-1)%Z, 140%N); (1%Z, 141%N); ((-1)%Z, 142%N); (1%Z, 143%N); ((-1)%Z, 144%N); (1%Z, 145%N); ((-1)%Z, 146%N); (1%Z, 147%N); ((-1)%Z, 148%N); (1%Z, 149%N); ((-1)%Z, 150%N); (1%Z, 151%N); ((-1)%Z, 152%N); (1%Z, 153%N); ((-1)%Z, 154%N); (1%Z, 155%N); ((-1)%Z, 156%N); (1%Z, 157%N); ((-1)%Z, 158%N); (1%Z, 159%N); ((-1)%Z, 160%N); (1%Z, 160%N); ((-1)%Z, 161%N); (1%Z, 161%N); (1%Z, 164%N); ((-1)%Z, 165%N); (1%Z, 176%N); ((-1)%Z, 177%N); (1%Z, 178%N); ((-1)%Z, 179%N); (1%Z, 180%N); ((-1)%Z, 181%N); (1%Z, 184%N); ((-1)%Z, 185%N); (1%Z, 194%N); ((-1)%Z, 195%N); (1%Z, 208%N); ((-1)%Z, 209%N); (1%Z, 210%N); ((-1)%Z, 211%N); (1%Z, 212%N); ((-1)%Z, 213%N); (1%Z, 242%N); ((-1)%Z, 243%N); (1%Z, 244%N); ((-1)%Z, 245%N); (1%Z, 248%N); ((-1)%Z, 249%N); (1%Z, 250%N); ((-1)%Z, 251%N); (1%Z, 252%N); ((-1)%Z, 253%N); (1%Z, 254%N); ((-1)%Z, 255%N); (1%Z, 256%N); ((-1)%Z, 257%N); (1%Z, 262%N); ((-1)%Z, 263%N); (1%Z, 266%N); (1%Z, 267%N); ((-1)%Z, 268%N); (1%Z, 271%N); ((-1)%Z, 272%N); (1%Z, 281%N); ((-1)%Z, 282%N); (1%Z, 285%N); ((-1)%Z, 286%N); (1%Z, 291%N); ((-1)%Z, 292%N); (1%Z, 311%N); ((-1)%Z, 312%N); (1%Z, 325%N); ((-1)%Z, 326%N); (1%Z, 327%N); ((-1)%Z, 328%N); (1%Z, 337%N); ((-1)%Z, 338%N); (1%Z, 353%N); ((-1)%Z, 354%N); ((-1)%Z, 359%N); (1%Z, 360%N); ((-1)%Z, 371%N); (1%Z, 372%N); (1%Z, 373%N); ((-1)%Z, 374%N); ((-1)%Z, 375%N); (1%Z, 376%N); (1%Z, 377%N); ((-1)%Z, 378%N); (1%Z, 385%N); ((-1)%Z, 386%N); (1%Z, 391%N); ((-1)%Z, 392%N); (1%Z, 395%N); ((-1)%Z, 396%N); ((-1)%Z, 397%N); (1%Z, 398%N); (1%Z, 401%N); ((-1)%Z, 402%N); (1%Z, 403%N); ((-1)%Z, 404%N); ((-1)%Z, 411%N); (1%Z, 412%N); ((-1)%Z, 417%N); (1%Z, 418%N); ((-1)%Z, 421%N); (1%Z, 422%N); (1%Z, 429%N); ((-1)%Z, 430%N); (1%Z, 435%N); ((-1)%Z, 436%N); ((-1)%Z, 439%N); (1%Z, 440%N); (1%Z, 441%N); ((-1)%Z, 442%N); (1%Z, 453%N); ((-1)%Z, 454%N); (1%Z, 455%N); ((-1)%Z, 456%N); (1%Z, 461%N); ((-1)%Z, 462%N); (1%Z, 463%N); ((-1)%Z, 466%N); (1%Z, 467%N); (1%Z, 486%N); ((-1)%Z, 487%N); (1%Z, 490%N); ((-1)%Z, 491%N); (1%Z, 494%N); ((-1)%Z, 495%N); (1%Z, 496%N); ((-1)%Z, 497%N); (1%Z, 500%N); ((-1)%Z, 501%N); (1%Z, 506%N); ((-1)%Z, 507%N); (1%Z, 512%N); ((-1)%Z, 513%N); ((-1)%Z, 514%N); (1%Z, 515%N); ((-1)%Z, 522%N); (1%Z, 523%N); ((-1)%Z, 524%N); (1%Z, 525%N); ((-1)%Z, 532%N); (1%Z, 532%N); ((-1)%Z, 533%N); (1%Z, 533%N); ((-1)%Z, 534%N); (1%Z, 535%N); ((-1)%Z, 536%N); (1%Z, 537%N); ((-1)%Z, 538%N); (1%Z, 538%N); (1%Z, 541%N); ((-1)%Z, 542%N); ((-1)%Z, 545%N); (1%Z, 546%N); (1%Z, 559%N); (1%Z, 560%N); ((-1)%Z, 561%N); (1%Z, 562%N); ((-1)%Z, 563%N); (2%Z, 569%N); (2%Z, 572%N); ((-1)%Z, 582%N); (1%Z, 583%N); ((-1)%Z, 584%N); ((-1)%Z, 588%N); (1%Z, 589%N); (1%Z, 590%N); ((-1)%Z, 593%N); (1%Z, 594%N); ((-1)%Z, 595%N); (1%Z, 596%N); ((-1)%Z, 605%N); (1%Z, 606%N); ((-1)%Z, 616%N); (1%Z, 617%N); ((-1)%Z, 618%N); (1%Z, 619%N)] (* H 2060 *);
   [(1%Z, 2%N); ((-1)%Z, 3%N); (1%Z, 4%N); ((-1)%Z, 5%N); (1%Z, 6%N); ((-1)%Z, 7%N); (1%Z, 8%N); ((-1)%Z, 9%N); (1%Z, 20%N); ((-1)%Z, 21%N); (1%Z, 24%N); ((-1)%Z, 25%N); (1%Z, 28%N); ((-1)%Z, 29%N); (1%Z, 30%N); ((-1)%Z, 31%N); (1%Z, 32%N); ((-1)%Z, 33%N); (1%Z, 34%N); ((-1)%Z, 35%N); (1%Z, 36%N); ((-1)%Z, 37%N); (1%Z, 42%N); ((-1)%Z, 43%N); (1%Z, 52%N); ((-1)%Z, 53%N); (1%Z, 56%N); ((-1)%Z, 57%N); (1%Z, 72%N); ((-1)%Z, 73%N); ((-1)%Z, 82%N); (1%Z, 83%N); (2%Z, 88%N); ((-2)%Z, 89%N); (1%Z, 92%N); ((-1)%Z, 93%N); (1%Z, 118%N); ((-1)%Z, 119%N); (1%Z, 128%N); ((-1)%Z, 129%N); ((-1)%Z, 164%N); (1%Z, 165%N); ((-2)%Z, 166%N); (2%Z, 167%N); ((-2)%Z, 168%N); (2%Z, 169%N); ((-1)%Z, 170%N); (1%Z, 171%N); ((-1)%Z, 172%N); (1%Z, 173%N); ((-1)%Z, 174%N); (1%Z, 175%N); ((-1)%Z, 176%N); (1%Z, 177%N); ((-1)%Z, 178%N); (1%Z, 179%N); ((-1)%Z, 180%N); (1%Z, 181%N); ((-1)%Z, 182%N); (1%Z, 183%N); ((-1)%Z, 184%N); (1%Z, 185%N); ((-1)%Z, 186%N); (1%Z, 187%N); ((-1)%Z, 188%N); (1%Z, 189%N); ((-1)%Z, 190%N); (1%Z, 191%N); ((-1)%Z, 192%N); (1%Z, 193%N); ((-1)%Z, 194%N); (1%Z, 195%N); ((-1)%Z, 196%N); (1%Z, 197%N); ((-1)%Z, 198%N); (1%Z, 199%N); ((-1)%Z, 200%N); (1%Z, 201%N); ((-1)%Z, 202%N); (1%Z, 203%N); ((-1)%Z, 204%N); (1%Z, 205%N); ((-1)%Z, 206%N); (1%Z, 207%N); ((-1)%Z, 208%N); (1%Z, 209%N); ((-1)%Z, 210%N); (1%Z, 211%N); ((-1)%Z, 212%N); (1%Z, 213%N); ((-1)%Z, 214%N); (1%Z, 215%N); ((-1)%Z, 216%N); (1%Z, 217%N); ((-1)%Z, 218%N); (1%Z, 219%N); ((-1)%Z, 220%N); (1%Z, 221%N); ((-1)%Z, 222%N); (1%Z, 223%N); ((-1)%Z, 224%N); (1%Z, 225%N); (1%Z, 230%N); ((-1)%Z, 231%N); (1%Z, 234%N); ((-1)%Z, 235%N); (1%Z, 236%N); ((-1)%Z, 237%N); (1%Z, 266%N); (1%Z, 281%N); ((-1)%Z, 282%N); (1%Z, 305%N); ((-1)%Z, 306%N); (1%Z, 345%N); ((-1)%Z, 346%N); ((-1)%Z, 353%N); (1%Z, 354%N); (1%Z, 359%N); ((-1)%Z, 360%N); ((-1)%Z, 361%N); (1%Z, 362%N); (1%Z, 365%N); ((-1)%Z, 366%N); (1%Z, 371%N); ((-1)%Z, 372%N); ((-1)%Z, 377%N); (1%Z, 378%N); ((-1)%Z, 379%N); (1%Z, 380%N); (1%Z, 383%N); ((-1)%Z, 384%N); (1%Z, 389%N); ((-1)%Z, 390%N); (1%Z, 393%N); ((-1)%Z, 394%N); ((-1)%Z, 399%N); (1%Z, 400%N); (1%Z, 407%N); ((-1)%Z, 408%N); ((-1)%Z, 413%N); (1%Z, 414%N); (1%Z, 419%N); ((-1)%Z, 420%N); ((-1)%Z, 423%N); (1%Z, 424%N); ((-1)%Z, 429%N); (1%Z, 430%N); (1%Z, 431%N); ((-1)%Z, 432%N); ((-1)%Z, 441%N); (1%Z, 442%N); (1%Z, 459%N); ((-1)%Z, 460%N); ((-1)%Z, 461%N); (1%Z, 462%N); ((-1)%Z, 463%N); ((-1)%Z, 464%N); (1%Z, 465%N); (1%Z, 492%N); ((-1)%Z, 493%N); (1%Z, 498%N); ((-1)%Z, 499%N); (1%Z, 504%N); ((-1)%Z, 505%N); ((-1)%Z, 512%N); (1%Z, 513%N); (1%Z, 520%N); ((-1)%Z, 521%N); ((-1)%Z, 526%N); (1%Z, 527%N); ((-1)%Z, 528%N); (1%Z, 529%N); (1%Z, 534%N); ((-1)%Z, 535%N); ((-1)%Z, 547%N); (1%Z, 548%N); (1%Z, 549%N); ((-1)%Z, 550%N); ((-1)%Z, 564%N); (1%Z, 565%N); ((-1)%Z, 566%N); (1%Z, 578%N); ((-1)%Z, 579%N); (1%Z, 580%N); ((-1)%Z, 585%N); (1%Z, 591%N); (1%Z, 592%N); ((-1)%Z, 597%N); (1%Z, 598%N); ((-1)%Z, 599%N); (1%Z, 600%N); (1%Z, 603%N); ((-1)%Z, 604%N); ((-1)%Z, 607%N); (1%Z, 608%N); ((-1)%Z, 620%N); (1%Z, 621%N); (1%Z, 624%N)] (* OH 2107 *);
   [((-1)%Z, 4%N); (1%Z, 5%N); (1%Z, 14%N); ((-1)%Z, 15%N); (1%Z, 74%N); ((-1)%Z, 75%N); ((-1)%Z, 76%N); (2%Z, 76%N); ((-2)%Z, 77%N); (1%Z, 77%N); (1%Z, 78%N); ((-1)%Z, 79%N); (1%Z, 80%N); ((-1)%Z, 81%N); (1%Z, 86%N); ((-1)%Z, 87%N); (1%Z, 90%N); ((-1)%Z, 91%N); (1%Z, 94%N); ((-1)%Z, 95%N); (1%Z, 98%N); ((-1)%Z, 99%N); (1%Z, 102%N); ((-1)%Z, 103%N); (1%Z, 106%N); ((-1)%Z, 107%N); (1%Z, 112%N); ((-1)%Z, 113%N); (1%Z, 116%N); ((-1)%Z, 117%N); (1%Z, 126%N); ((-1)%Z, 127%N); (1%Z, 132%N); ((-1)%Z, 133%N); (1%Z, 134%N); ((-1)%Z, 135%N); (1%Z, 142%N); ((-1)%Z, 143%N); (1%Z, 146%N); ((-1)%Z, 147%N); (1%Z, 150%N); ((-1)%Z, 151%N); (1%Z, 152%N); ((-1)%Z, 153%N); (1%Z, 156%N); ((-1)%Z, 157%N); ((-1)%Z, 162%N); (1%Z, 163%N); ((-1)%Z, 164%N); (1%Z, 165%N); ((-1)%Z, 248%N); (1%Z, 249%N); ((-1)%Z, 267%N); (1%Z, 268%N); (1%Z, 269%N); ((-1)%Z, 270%N); ((-1)%Z, 285%N); (1%Z, 286%N); ((-1)%Z, 337%N); (1%Z, 338%N); (1%Z, 341%N); ((-1)%Z, 342%N); (1%Z, 375%N); ((-1)%Z, 376%N); (1%Z, 387%N); ((-1)%Z, 388%N); (1%Z, 397%N); ((-1)%Z, 398%N); (1%Z, 411%N); ((-1)%Z, 412%N); (1%Z, 421%N); ((-1)%Z, 422%N); ((-1)%Z, 435%N); (1%Z, 436%N); (1%Z, 524%N); ((-1)%Z, 525%N); (1%Z, 543%N); ((-1)%Z, 544%N); (1%Z, 545%N); ((-1)%Z, 546%N); (1%Z, 559%N); (1%Z, 566%N); ((-1)%Z, 567%N); (1%Z, 568%N); (1%Z, 573%N); (1%Z, 582%N); ((-1)%Z, 583%N); (1%Z, 584%N); (1%Z, 595%N); ((-1)%Z, 596%N); (1%Z, 605%N); ((-1)%Z, 606%N)] (* H2 2141 *);
   [((-1)%Z, 6%N); (1%Z, 7%N); (1%Z, 8%N); ((-1)%Z, 9%N); (1%Z, 62%N); ((-1)%Z, 63%N); (1%Z, 64%N); ((-1)%Z, 65%N); (1%Z, 66%N); ((-1)%Z, 67%N); (1%Z, 68%N); ((-1)%Z, 69%N); (1%Z, 70%N); ((-1)%Z, 71%N); ((-1)%Z, 84%N); (1%Z, 85%N); ((-1)%Z, 86%N); (1%Z, 87%N); ((-1)%Z, 88%N); (1%Z, 89%N); (1%Z, 90%N); ((-1)%Z, 91%N); ((-1)%Z, 170%N); (1%Z, 171%N); (1%Z, 172%N); ((-1)%Z, 173%N); (1%Z, 174%N); ((-1)%Z, 175%N); ((-2)%Z, 226%N); (2%Z, 227%N); ((-2)%Z, 228%N); (2%Z, 229%N); ((-1)%Z, 230%N); (1%Z, 231%N); ((-1)%Z, 232%N); (1%Z, 233%N); ((-1)%Z, 234%N); (1%Z, 235%N); ((-1)%Z, 236%N); (1%Z, 237%N); ((-1)%Z, 238%N); (1%Z, 239%N); (1%Z, 307%N); ((-1)%Z, 308%N); (1%Z, 329%N); ((-1)%Z, 330%N); (1%Z, 331%N); ((-1)%Z, 332%N); (1%Z, 333%N); ((-1)%Z, 334%N); (1%Z, 343%N); ((-1)%Z, 344%N); (1%Z, 361%N); ((-1)%Z, 362%N); ((-1)%Z, 365%N); (1%Z, 366%N); (1%Z, 405%N); ((-1)%Z, 406%N); (1%Z, 425%N); ((-1)%Z, 426%N); ((-1)%Z, 564%N); (1%Z, 565%N); (1%Z, 576%N); ((-1)%Z, 577%N); (1%Z, 581%N); ((-1)%Z, 586%N); (1%Z, 609%N); ((-1)%Z, 622%N); (1%Z, 623%N); ((-1)%Z, 624%N)] (* HO2 2157 *);
   [((-1)%Z, 8%N); (1%Z, 9%N); ((-1)%Z, 90%N); (1%Z, 91%N); ((-1)%Z, 92%N); (1%Z, 93%N); (1%Z, 166%N); ((-1)%Z, 167%N); ((-1)%Z, 172%N); (1%Z, 173%N); ((-1)%Z, 174%N); (1%Z, 175%N); (1%Z, 226%N); ((-1)%Z, 227%N); (1%Z, 228%N); ((-1)%Z, 229%N); (1%Z, 238%N); ((-1)%Z, 239%N); ((-1)%Z, 307%N); (1%Z, 308%N); (1%Z, 586%N); ((-1)%Z, 609%N)] (* H2O2 2171 *);
   [((-1)%Z, 10%N); (1%Z, 11%N); (1%Z, 38%N); ((-1)%Z, 39%N); ((-1)%Z, 94%N); (1%Z, 95%N); (1%Z, 98%N); ((-1)%Z, 99%N); ((-1)%Z, 178%N); (1%Z, 179%N); (1%Z, 182%N); ((-1)%Z, 183%N); ((-1)%Z, 246%N); (1%Z, 247%N); ((-1)%Z, 248%N); (1%Z, 249%N); ((-1)%Z, 250%N); (1%Z, 251%N); ((-1)%Z, 252%N); (1%Z, 253%N); ((-1)%Z, 254%N); (1%Z, 255%N); ((-1)%Z, 256%N); (1%Z, 257%N); ((-1)%Z, 258%N); (1%Z, 259%N); ((-1)%Z, 260%N); (1%Z, 261%N); ((-1)%Z, 262%N); (1%Z, 263%N); ((-1)%Z, 264%N); (1%Z, 265%N); ((-1)%Z, 472%N); (1%Z, 473%N); ((-1)%Z, 474%N); (1%Z, 475%N); ((-1)%Z, 484%N); (1%Z, 485%N); ((-1)%Z, 486%N); (1%Z, 487%N); ((-1)%Z, 488%N); (1%Z, 489%N); ((-1)%Z, 567%N); (1%Z, 568%N)] (* CH 2176 *);
   [(1%Z, 10%N); ((-1)%Z, 11%N); (1%Z, 14%N); ((-1)%Z, 15%N); ((-1)%Z, 22%N); (1%Z, 23%N); (1%Z, 24%N); ((-1)%Z, 25%N); (1%Z, 38%N); ((-1)%Z, 39%N); (1%Z, 44%N); ((-1)%Z, 45%N); (2%Z, 54%N); ((-2)%Z, 55%N); ((-1)%Z, 60%N); (1%Z, 61%N); (1%Z, 106%N); ((-1)%Z, 107%N); (1%Z, 154%N); ((-1)%Z, 155%N); (1%Z, 158%N); ((-1)%Z, 159%N); ((-1)%Z, 162%N); (1%Z, 163%N); (1%Z, 176%N); ((-1)%Z, 177%N); ((-1)%Z, 194%N); (1%Z, 195%N); (1%Z, 196%N); ((-1)%Z, 197%N); (1%Z, 216%N); ((-1)%Z, 217%N); ((-1)%Z, 236%N); (1%Z, 237%N); (1%Z, 240%N); ((-1)%Z, 241%N); ((-1)%Z, 258%N); (1%Z, 259%N); (1%Z, 260%N); ((-1)%Z, 261%N); (1%Z, 264%N); ((-1)%Z, 265%N); (1%Z, 266%N); ((-1)%Z, 275%N); (1%Z, 276%N); (1%Z, 277%N); ((-1)%Z, 278%N); (1%Z, 281%N); ((-1)%Z, 282%N); (1%Z, 283%N); ((-1)%Z, 284%N); ((-1)%Z, 295%N); (1%Z, 295%N); ((-1)%Z, 296%N); (1%Z, 296%N); (1%Z, 299%N); ((-1)%Z, 300%N); (1%Z, 313%N); ((-1)%Z, 314%N); (1%Z, 325%N); ((-1)%Z, 326%N); (1%Z, 327%N); ((-1)%Z, 328%N); (1%Z, 329%N); ((-1)%Z, 330%N); (1%Z, 335%N); ((-1)%Z, 336%N); (2%Z, 345%N); ((-2)%Z, 346%N); (2%Z, 347%N); ((-2)%Z, 348%N); (1%Z, 427%N); ((-1)%Z, 428%N); (1%Z, 437%N); ((-1)%Z, 438%N); (1%Z, 439%N); ((-1)%Z, 440%N); (1%Z, 441%N); ((-1)%Z, 442%N); (1%Z, 443%N); ((-1)%Z, 444%N); (1%Z, 447%N); ((-1)%Z, 448%N); (1%Z, 449%N); ((-1)%Z, 450%N); (1%Z, 457%N); ((-1)%Z, 458%N); (1%Z, 464%N); ((-1)%Z, 465%N); (1%Z, 482%N); ((-1)%Z, 483%N); (1%Z, 506%N); ((-1)%Z, 507%N); (1%Z, 518%N); ((-1)%Z, 519%N); (1%Z, 522%N); ((-1)%Z, 523%N); (1%Z, 530%N); ((-1)%Z, 531%N); (1%Z, 536%N); ((-1)%Z, 537%N); (1%Z, 539%N); ((-1)%Z, 540%N); (1%Z, 551%N); ((-1)%Z, 552%N); (1%Z, 557%N); ((-1)%Z, 558%N); (1%Z, 559%N); (1%Z, 580%N); (1%Z, 581%N); (1%Z, 584%N); (1%Z, 585%N); (1%Z, 586%N); (1%Z, 587%N); (1%Z, 591%N)] (* CO 2185 *);
   [((-1)%Z, 12%N); (1%Z, 13%N); (1%Z, 44%N); ((-1)%Z, 45%N); (1%Z, 58%N); ((-1)%Z, 59%N); ((-1)%Z, 96%N); (1%Z, 97%N); ((-1)%Z, 180%N); (1%Z, 181%N); ((-1)%Z, 182%N); (1%Z, 183%N); (1%Z, 188%N); ((-1)%Z, 189%N); ((-1)%Z, 230%N); (1%Z, 231%N); ((-1)%Z, 242%N); (1%Z, 243%N); (1%Z, 248%N); ((-1)%Z, 249%N); ((-1)%Z, 252%N); (1%Z, 253%N); ((-1)%Z, 266%N); ((-1)%Z, 267%N); (1%Z, 268%N); ((-2)%Z, 269%N); (2%Z, 270%N); ((-1)%Z, 271%N); (1%Z, 272%N); ((-1)%Z, 273%N); (1%Z, 274%N); ((-1)%Z, 275%N); (1%Z, 276%N); ((-1)%Z, 277%N); (1%Z, 278%N); (1%Z, 279%N); ((-1)%Z, 280%N); (1%Z, 289%N); ((-1)%Z, 290%N); (1%Z, 295%N); ((-1)%Z, 296%N); (1%Z, 297%N); ((-1)%Z, 298%N); (1%Z, 468%N); ((-1)%Z, 469%N); ((-1)%Z, 476%N); (1%Z, 477%N); ((-1)%Z, 490%N); (1%Z, 491%N); ((-1)%Z, 492%N); (1%Z, 493%N); ((-1)%Z, 494%N); (1%Z, 495%N); (1%Z, 514%N); ((-1)%Z, 515%N); ((-1)%Z, 569%N); ((-1)%Z, 570%N); (1%Z, 571%N); ((-2)%Z, 572%N); (1%Z, 590%N)] (* 3XCH2 2206 *);
   [(1%Z, 12%N); ((-1)%Z, 13%N); (1%Z, 16%N); ((-1)%Z, 17%N); ((-1)%Z, 24%N); (1%Z, 25%N); ((-1)%Z, 26%N); (1%Z, 27%N); (1%Z, 28%N); ((-1)%Z, 29%N); (1%Z, 48%N); ((-1)%Z, 49%N); (1%Z, 62%N); ((-1)%Z, 63%N); ((-1)%Z, 104%N); (1%Z, 105%N); ((-1)%Z, 106%N); (1%Z, 107%N); (1%Z, 112%N); ((-1)%Z, 113%N); (1%Z, 178%N); ((-1)%Z, 179%N); ((-1)%Z, 196%N); (1%Z, 197%N); (1%Z, 198%N); ((-1)%Z, 199%N); (1%Z, 238%N); ((-1)%Z, 239%N); (1%Z, 246%N); ((-1)%Z, 247%N); (1%Z, 260%N); ((-1)%Z, 261%N); ((-1)%Z, 313%N); (1%Z, 314%N); (1%Z, 315%N); ((-1)%Z, 316%N); ((-1)%Z, 325%N); (1%Z, 326%N); ((-1)%Z, 327%N); (1%Z, 328%N); ((-1)%Z, 329%N); (1%Z, 330%N); (1%Z, 335%N); ((-1)%Z, 336%N); (1%Z, 339%N); ((-1)%Z, 340%N); (1%Z, 488%N); ((-1)%Z, 489%N); (1%Z, 510%N); ((-1)%Z, 511%N); (1%Z, 512%N); ((-1)%Z, 513%N); (2%Z, 592%N); (1%Z, 593%N); ((-1)%Z, 594%N); (1%Z, 599%N); ((-1)%Z, 600%N)] (* HCO 2218 *);
   [((-1)%Z, 14%N); (1%Z, 15%N); ((-1)%Z, 16%N); (1%Z, 17%N); ((-1)%Z, 98%N); (1%Z, 99%N); (1%Z, 120%N); ((-1)%Z, 121%N); (1%Z, 130%N); ((-1)%Z, 131%N); (1%Z, 154%N); ((-1)%Z, 155%N); ((-1)%Z, 184%N); (1%Z, 185%N); (1%Z, 190%N); ((-1)%Z, 191%N); ((-1)%Z, 279%N); (1%Z, 280%N); ((-1)%Z, 281%N); (1%Z, 282%N); ((-1)%Z, 283%N); (1%Z, 284%N); ((-1)%Z, 285%N); (1%Z, 286%N); ((-1)%Z, 287%N); (1%Z, 288%N); ((-1)%Z, 289%N); (1%Z, 290%N); ((-1)%Z, 291%N); (1%Z, 292%N); ((-1)%Z, 293%N); (1%Z, 294%N); ((-1)%Z, 295%N); (1%Z, 296%N); ((-1)%Z, 297%N); (1%Z, 298%N); ((-1)%Z, 299%N); (1%Z, 300%N); ((-1)%Z, 301%N); (1%Z, 302%N); ((-1)%Z, 478%N); (1%Z, 479%N); ((-1)%Z, 496%N); (1%Z, 497%N); ((-1)%Z, 498%N); (1%Z, 499%N); ((-1)%Z, 500%N); (1%Z, 501%N); ((-1)%Z, 573%N)] (* 1XCH2 2229 *);
   [((-1)%Z, 18%N); (1%Z, 19%N); (1%Z, 20%N); ((-1)%Z, 21%N); (1%Z, 48%N); ((-1)%Z, 49%N); (1%Z, 50%N); ((-1)%Z, 51%N); (1%Z, 96%N); ((-1)%Z, 97%N); ((-1)%Z, 100%N); (1%Z, 101%N); (1%Z, 102%N); ((-1)%Z, 103%N); (1%Z, 118%N); ((-1)%Z, 119%N); (1%Z, 128%N); ((-1)%Z, 129%N); (1%Z, 158%N); ((-1)%Z, 159%N); ((-1)%Z, 186%N); (1%Z, 187%N); ((-1)%Z, 188%N); (1%Z, 189%N); ((-1)%Z, 190%N); (1%Z, 191%N); (1%Z, 192%N); ((-1)%Z, 193%N); (1%Z, 216%N); ((-1)%Z, 217%N); ((-1)%Z, 232%N); (1%Z, 233%N); ((-1)%Z, 234%N); (1%Z, 235%N); ((-1)%Z, 244%N); (1%Z, 245%N); ((-1)%Z, 254%N); (1%Z, 255%N); (1%Z, 267%N); ((-1)%Z, 268%N); ((-1)%Z, 271%N); (1%Z, 272%N); (2%Z, 273%N); ((-2)%Z, 274%N); (1%Z, 285%N); ((-1)%Z, 286%N); ((-1)%Z, 291%N); (1%Z, 292%N); (2%Z, 293%N); ((-2)%Z, 294%N); (1%Z, 301%N); ((-1)%Z, 302%N); ((-1)%Z, 303%N); (1%Z, 304%N); ((-1)%Z, 305%N); (1%Z, 306%N); ((-1)%Z, 307%N); (1%Z, 308%N); ((-2)%Z, 309%N); (2%Z, 310%N); ((-2)%Z, 311%N); (2%Z, 312%N); ((-1)%Z, 313%N); (1%Z, 314%N); ((-1)%Z, 315%N); (1%Z, 316%N); ((-1)%Z, 317%N); (1%Z, 318%N); ((-1)%Z, 319%N); (1%Z, 320%N); ((-1)%Z, 321%N); (1%Z, 322%N); ((-1)%Z, 323%N); (1%Z, 324%N); ((-1)%Z, 415%N); (1%Z, 416%N); ((-1)%Z, 502%N); (1%Z, 503%N); ((-1)%Z, 504%N); (1%Z, 505%N); ((-1)%Z, 541%N); (1%Z, 542%N); ((-1)%Z, 543%N); (1%Z, 544%N); ((-1)%Z, 559%N); ((-1)%Z, 566%N); (1%Z, 567%N); ((-1)%Z, 568%N); (1%Z, 580%N); (1%Z, 581%N); (1%Z, 584%N); (1%Z, 585%N); (1%Z, 586%N); ((-1)%Z, 587%N); (1%Z, 587%N); (1%Z, 593%N); ((-1)%Z, 594%N); ((-1)%Z, 601%N); (1%Z, 602%N); ((-1)%Z, 610%N); (1%Z, 611%N); ((-1)%Z, 612%N); (1%Z, 613%N); (1%Z, 618%N); ((-1)%Z, 619%N); ((-1)%Z, 625%N); (1%Z, 626%N)] (* CH3 2239 *);
   [(1%Z, 18%N); ((-1)%Z, 19%N); ((-1)%Z, 28%N); (1%Z, 29%N); (1%Z, 30%N); ((-1)%Z, 31%N); (1%Z, 32%N); ((-1)%Z, 33%N); (1%Z, 50%N); ((-1)%Z, 51%N); ((-1)%Z, 62%N); (1%Z, 63%N); (1%Z, 104%N); ((-1)%Z, 105%N); ((-1)%Z, 108%N); (1%Z, 109%N); ((-1)%Z, 110%N); (1%Z, 111%N); ((-1)%Z, 112%N); (1%Z, 113%N); (1%Z, 116%N); ((-1)%Z, 117%N); (1%Z, 126%N); ((-1)%Z, 127%N); (1%Z, 162%N); ((-1)%Z, 163%N); (1%Z, 180%N); ((-1)%Z, 181%N); (1%Z, 184%N); ((-1)%Z, 185%N); ((-1)%Z, 198%N); (1%Z, 199%N); (1%Z, 200%N); ((-1)%Z, 201%N); (1%Z, 202%N); ((-1)%Z, 203%N); (1%Z, 230%N); ((-1)%Z, 231%N); ((-1)%Z, 238%N); (1%Z, 239%N); (1%Z, 250%N); ((-1)%Z, 251%N); ((-1)%Z, 262%N); (1%Z, 263%N); (1%Z, 299%N); ((-1)%Z, 300%N); (1%Z, 305%N); ((-1)%Z, 306%N); ((-1)%Z, 315%N); (1%Z, 316%N); (1%Z, 331%N); ((-1)%Z, 332%N); (1%Z, 333%N); ((-1)%Z, 334%N); (1%Z, 339%N); ((-1)%Z, 340%N); (1%Z, 566%N); (1%Z, 570%N); ((-1)%Z, 571%N); (1%Z, 573%N); (1%Z, 591%N); (1%Z, 614%N); ((-1)%Z, 615%N); (1%Z, 624%N)] (* CH2O 2259 *);
   [((-1)%Z, 20%N); (1%Z, 21%N); (1%Z, 100%N); ((-1)%Z, 101%N); ((-1)%Z, 102%N); (1%Z, 103%N); ((-1)%Z, 192%N); (1%Z, 193%N); (1%Z, 232%N); ((-1)%Z, 233%N); ((-1)%Z, 256%N); (1%Z, 257%N); ((-1)%Z, 273%N); (1%Z, 274%N); ((-1)%Z, 293%N); (1%Z, 294%N); (1%Z, 307%N); ((-1)%Z, 308%N); (1%Z, 313%N); ((-1)%Z, 314%N); (1%Z, 315%N); ((-1)%Z, 316%N); (1%Z, 317%N); ((-1)%Z, 318%N); (1%Z, 319%N); ((-1)%Z, 320%N); (1%Z, 321%N); ((-1)%Z, 322%N); (1%Z, 323%N); ((-1)%Z, 324%N); (1%Z, 415%N); ((-1)%Z, 416%N); (1%Z, 587%N); (1%Z, 610%N); ((-1)%Z, 611%N)] (* CH4 2271 *);
   [(1%Z, 22%N); ((-1)%Z, 23%N); (1%Z, 26%N); ((-1)%Z, 27%N); (1%Z, 58%N); ((-1)%Z, 59%N); (1%Z, 60%N); ((-1)%Z, 61%N); ((-1)%Z, 80%N); (1%Z, 80%N); ((-1)%Z, 81%N); (1%Z, 81%N); (1%Z, 194%N); ((-1)%Z, 195%N); (1%Z, 236%N); ((-1)%Z, 237%N); ((-1)%Z, 260%N); (1%Z, 261%N); ((-1)%Z, 297%N); (1%Z, 297%N); ((-1)%Z, 298%N); (1%Z, 298%N); ((-1)%Z, 299%N); (1%Z, 300%N); (1%Z, 445%N); ((-1)%Z, 446%N); (1%Z, 451%N); ((-1)%Z, 452%N); (1%Z, 516%N); ((-1)%Z, 517%N); (1%Z, 528%N); ((-1)%Z, 529%N); ((-1)%Z, 551%N); (1%Z, 552%N); (1%Z, 555%N); ((-1)%Z, 556%N); ((-1)%Z, 557%N); (1%Z, 558%N); (1%Z, 569%N); (1%Z, 590%N)] (* CO2 2278 *);
   [((-1)%Z, 30%N); (1%Z, 31%N); (1%Z, 34%N); ((-1)%Z, 35%N); (1%Z, 108%N); ((-1)%Z, 109%N); ((-1)%Z, 114%N); (1%Z, 115%N); ((-1)%Z, 116%N); (1%Z, 117%N); ((-1)%Z, 118%N); (1%Z, 119%N); ((-1)%Z, 120%N); (1%Z, 121%N); (1%Z, 124%N); ((-1)%Z, 125%N); (1%Z, 132%N); ((-1)%Z, 133%N); ((-1)%Z, 200%N); (1%Z, 201%N); (1%Z, 204%N); ((-1)%Z, 205%N); (1%Z, 317%N); ((-1)%Z, 318%N); ((-1)%Z, 331%N); (1%Z, 332%N); (1%Z, 599%N); ((-1)%Z, 600%N); (1%Z, 620%N); ((-1)%Z, 621%N)] (* CH2OH 2286 *);
   [((-1)%Z, 32%N); (1%Z, 33%N); (1%Z, 36%N); ((-1)%Z, 37%N); (1%Z, 110%N); ((-1)%Z, 111%N); ((-1)%Z, 122%N); (1%Z, 123%N); ((-1)%Z, 124%N); (1%Z, 125%N); ((-1)%Z, 126%N); (1%Z, 127%N); ((-1)%Z, 128%N); (1%Z, 129%N); ((-1)%Z, 130%N); (1%Z, 131%N); (1%Z, 134%N); ((-1)%Z, 135%N); ((-1)%Z, 202%N); (1%Z, 203%N); (1%Z, 206%N); ((-1)%Z, 207%N); (1%Z, 234%N); ((-1)%Z, 235%N); (1%Z, 303%N); ((-1)%Z, 304%N); (1%Z, 319%N); ((-1)%Z, 320%N); ((-1)%Z, 333%N); (1%Z, 334%N)] (* CH3O 2293 *);
   [((-1)%Z, 34%N); (1%Z, 35%N); ((-1)%Z, 36%N); (1%Z, 37%N); (1%Z, 114%N); ((-1)%Z, 115%N); (1%Z, 122%N); ((-1)%Z, 123%N); ((-1)%Z, 132%N); (1%Z, 133%N); ((-1)%Z, 134%N); (1%Z, 135%N); (1%Z, 186%N); ((-1)%Z, 187%N); ((-1)%Z, 204%N); (1%Z, 205%N); ((-1)%Z, 206%N); (1%Z, 207%N); (1%Z, 287%N); ((-1)%Z, 288%N); ((-1)%Z, 317%N); (1%Z, 318%N); ((-1)%Z, 319%N); (1%Z, 320%N)] (* CH3OH 2300 *);
   [((-1)%Z, 38%N); (1%Z, 39%N); (1%Z, 42%N); ((-1)%Z, 43%N); ((-1)%Z, 136%N); (1%Z, 137%N); ((-1)%Z, 208%N); (1%Z, 209%N); (1%Z, 214%N); ((-1)%Z, 215%N); (1%Z, 242%N); ((-1)%Z, 243%N); ((-1)%Z, 335%N); (1%Z, 336%N); ((-1)%Z, 337%N); (1%Z, 338%N)] (* C2H 2306 *);
   [((-1)%Z, 40%N); (1%Z, 41%N); ((-1)%Z, 42%N); (1%Z, 43%N); ((-1)%Z, 44%N); (1%Z, 45%N); (1%Z, 136%N); ((-1)%Z, 137%N); ((-1)%Z, 138%N); (1%Z, 139%N); (1%Z, 142%N); ((-1)%Z, 143%N); ((-1)%Z, 210%N); (1%Z, 211%N); ((-1)%Z, 212%N); (1%Z, 213%N); ((-1)%Z, 214%N); (1%Z, 215%N); ((-1)%Z, 216%N); (1%Z, 217%N); (1%Z, 218%N); ((-1)%Z, 219%N); (1%Z, 244%N); ((-1)%Z, 245%N); (1%Z, 252%N); ((-1)%Z, 253%N); (1%Z, 264%N); ((-1)%Z, 265%N); (1%Z, 269%N); ((-1)%Z, 270%N); (1%Z, 337%N); ((-1)%Z, 338%N); (1%Z, 341%N); ((-1)%Z, 342%N); (1%Z, 347%N); ((-1)%Z, 348%N); (1%Z, 572%N); (1%Z, 576%N); ((-1)%Z, 577%N)] (* C2H2 2310 *);
   [(1%Z, 40%N); ((-1)%Z, 41%N); ((-1)%Z, 54%N); (1%Z, 55%N); (1%Z, 56%N); ((-1)%Z, 57%N); ((-1)%Z, 154%N); (1%Z, 155%N); (1%Z, 156%N); ((-1)%Z, 157%N); (1%Z, 208%N); ((-1)%Z, 209%N); (1%Z, 224%N); ((-1)%Z, 225%N); (1%Z, 258%N); ((-1)%Z, 259%N); ((-1)%Z, 264%N); (1%Z, 265%N); ((-1)%Z, 277%N); (1%Z, 278%N); ((-1)%Z, 345%N); (1%Z, 346%N); ((-2)%Z, 347%N); (2%Z, 348%N); ((-1)%Z, 539%N); (1%Z, 540%N)] (* HCCO 2318 *);
   [((-1)%Z, 46%N); (1%Z, 47%N); (1%Z, 138%N); ((-1)%Z, 139%N); ((-1)%Z, 140%N); (1%Z, 141%N); ((-1)%Z, 142%N); (1%Z, 143%N); (1%Z, 146%N); ((-1)%Z, 147%N); ((-1)%Z, 218%N); (1%Z, 219%N); (1%Z, 220%N); ((-1)%Z, 221%N); (1%Z, 254%N); ((-1)%Z, 255%N); (1%Z, 277%N); ((-1)%Z, 278%N); (1%Z, 321%N); ((-1)%Z, 322%N); ((-1)%Z, 339%N); (1%Z, 340%N); ((-1)%Z, 574%N); (1%Z, 575%N); ((-1)%Z, 576%N); (1%Z, 577%N)] (* C2H3 2324 *);
   [(1%Z, 46%N); ((-1)%Z, 47%N); ((-1)%Z, 56%N); (1%Z, 57%N); ((-1)%Z, 58%N); (1%Z, 59%N); ((-1)%Z, 156%N); (1%Z, 157%N); ((-1)%Z, 158%N); (1%Z, 159%N); (1%Z, 160%N); ((-1)%Z, 161%N); (1%Z, 210%N); ((-1)%Z, 211%N); ((-1)%Z, 224%N); (1%Z, 225%N); (1%Z, 262%N); ((-1)%Z, 263%N); (1%Z, 275%N); ((-1)%Z, 276%N); ((-1)%Z, 588%N); (1%Z, 589%N); (1%Z, 595%N); ((-1)%Z, 596%N); (1%Z, 597%N); ((-1)%Z, 598%N)] (* CH2CO 2330 *);
   [((-1)%Z, 48%N); (1%Z, 49%N); (1%Z, 140%N); ((-1)%Z, 141%N); ((-1)%Z, 144%N); (1%Z, 145%N); ((-1)%Z, 146%N); (1%Z, 147%N); (1%Z, 150%N); ((-1)%Z, 151%N); ((-1)%Z, 220%N); (1%Z, 221%N); (1%Z, 256%N); ((-1)%Z, 257%N); (1%Z, 271%N); ((-1)%Z, 272%N); (1%Z, 291%N); ((-1)%Z, 292%N); ((-1)%Z, 321%N); (1%Z, 322%N); ((-1)%Z, 341%N); (1%Z, 342%N); (1%Z, 343%N); ((-1)%Z, 344%N); ((-1)%Z, 560%N); (1%Z, 561%N); ((-1)%Z, 612%N); (1%Z, 613%N)] (* C2H4 2336 *);
   [((-1)%Z, 50%N); (1%Z, 51%N); (1%Z, 52%N); ((-1)%Z, 53%N); (1%Z, 144%N); ((-1)%Z, 145%N); ((-1)%Z, 148%N); (1%Z, 149%N); ((-1)%Z, 150%N); (1%Z, 151%N); (1%Z, 152%N); ((-1)%Z, 153%N); (1%Z, 222%N); ((-1)%Z, 223%N); (1%Z, 301%N); ((-1)%Z, 302%N); (1%Z, 311%N); ((-1)%Z, 312%N); (1%Z, 323%N); ((-1)%Z, 324%N); ((-1)%Z, 343%N); (1%Z, 344%N); ((-1)%Z, 562%N); (1%Z, 563%N); ((-1)%Z, 601%N); (1%Z, 602%N); (1%Z, 614%N); ((-1)%Z, 615%N); (1%Z, 618%N); ((-1)%Z, 619%N); (1%Z, 620%N); ((-1)%Z, 621%N); (1%Z, 624%N); (2%Z, 625%N); ((-2)%Z, 626%N)] (* C2H5 2342 *);
   [((-1)%Z, 52%N); (1%Z, 53%N); (1%Z, 148%N); ((-1)%Z, 149%N); ((-1)%Z, 152%N); (1%Z, 153%N); ((-1)%Z, 222%N); (1%Z, 223%N); ((-1)%Z, 301%N); (1%Z, 302%N); (1%Z, 309%N); ((-1)%Z, 310%N); ((-1)%Z, 323%N); (1%Z, 324%N)] (* C2H6 2350 *);
   [((-1)%Z, 68%N); (1%Z, 68%N); ((-1)%Z, 69%N); (1%Z, 69%N); ((-1)%Z, 78%N); (1%Z, 78%N); ((-1)%Z, 79%N); (1%Z, 79%N); (1%Z, 82%N); ((-1)%Z, 83%N); (1%Z, 84%N); ((-1)%Z, 85%N); (1%Z, 92%N); ((-1)%Z, 93%N); (1%Z, 120%N); ((-1)%Z, 121%N); (1%Z, 130%N); ((-1)%Z, 131%N); (1%Z, 164%N); ((-1)%Z, 165%N); (1%Z, 168%N); ((-1)%Z, 169%N); (1%Z, 170%N); ((-1)%Z, 171%N); (1%Z, 172%N); ((-1)%Z, 173%N); (1%Z, 174%N); ((-1)%Z, 175%N); (1%Z, 182%N); ((-1)%Z, 183%N); (1%Z, 188%N); ((-1)%Z, 189%N); (1%Z, 190%N); ((-1)%Z, 191%N); (1%Z, 192%N); ((-1)%Z, 193%N); (1%Z, 196%N); ((-1)%Z, 197%N); (1%Z, 198%N); ((-1)%Z, 199%N); (1%Z, 200%N); ((-1)%Z, 201%N); (1%Z, 202%N); ((-1)%Z, 203%N); (1%Z, 204%N); ((-1)%Z, 205%N); (1%Z, 206%N); ((-1)%Z, 207%N); (1%Z, 214%N); ((-1)%Z, 215%N); (1%Z, 218%N); ((-1)%Z, 219%N); (1%Z, 220%N); ((-1)%Z, 221%N); (1%Z, 222%N); ((-1)%Z, 223%N); (1%Z, 224%N); ((-1)%Z, 225%N); ((-1)%Z, 250%N); (1%Z, 251%N); (1%Z, 283%N); ((-1)%Z, 284%N); ((-1)%Z, 287%N); (1%Z, 288%N); ((-1)%Z, 289%N); (1%Z, 289%N); ((-1)%Z, 290%N); (1%Z, 290%N); ((-1)%Z, 325%N); (1%Z, 325%N); ((-1)%Z, 326%N); (1%Z, 326%N); (1%Z, 379%N); ((-1)%Z, 380%N); ((-1)%Z, 387%N); (1%Z, 388%N); (1%Z, 399%N); ((-1)%Z, 400%N); (1%Z, 413%N); ((-1)%Z, 414%N); (1%Z, 423%N); ((-1)%Z, 424%N); ((-1)%Z, 431%N); (1%Z, 432%N); (1%Z, 502%N); ((-1)%Z, 503%N); (1%Z, 526%N); ((-1)%Z, 527%N); (1%Z, 547%N); ((-1)%Z, 548%N); (1%Z, 564%N); ((-1)%Z, 565%N); ((-1)%Z, 573%N); (1%Z, 585%N); (1%Z, 597%N); ((-1)%Z, 598%N); (1%Z, 607%N); ((-1)%Z, 608%N)] (* H2O 2354 *);
   [((-1)%Z, 70%N); (1%Z, 70%N); ((-1)%Z, 71%N); (1%Z, 71%N); ((-1)%Z, 279%N); (1%Z, 279%N); ((-1)%Z, 280%N); (1%Z, 280%N); (1%Z, 349%N); ((-1)%Z, 350%N); (1%Z, 355%N); ((-1)%Z, 356%N); (1%Z, 359%N); ((-1)%Z, 360%N); (1%Z, 361%N); ((-1)%Z, 362%N); (1%Z, 363%N); ((-1)%Z, 364%N); (1%Z, 385%N); ((-1)%Z, 386%N); (1%Z, 389%N); ((-1)%Z, 390%N); (1%Z, 401%N); ((-1)%Z, 402%N); (1%Z, 403%N); ((-1)%Z, 404%N); (1%Z, 405%N); ((-1)%Z, 406%N); (1%Z, 407%N); ((-1)%Z, 408%N); (1%Z, 411%N); ((-1)%Z, 412%N); (1%Z, 413%N); ((-1)%Z, 414%N); (1%Z, 415%N); ((-1)%Z, 416%N); (1%Z, 443%N); ((-1)%Z, 444%N); (1%Z, 451%N); ((-1)%Z, 452%N); (1%Z, 468%N); ((-1)%Z, 469%N); ((-1)%Z, 470%N); (1%Z, 471%N); ((-1)%Z, 472%N); (1%Z, 473%N); ((-1)%Z, 474%N); (1%Z, 475%N); ((-1)%Z, 476%N); (1%Z, 477%N); ((-1)%Z, 478%N); (1%Z, 479%N); (1%Z, 506%N); ((-1)%Z, 507%N); (1%Z, 510%N); ((-1)%Z, 511%N); (1%Z, 512%N); ((-1)%Z, 513%N); (1%Z, 514%N); ((-1)%Z, 515%N)] (* N2 2372 *);
   [(1%Z, 94%N); ((-1)%Z, 95%N); ((-1)%Z, 176%N); (1%Z, 177%N); ((-1)%Z, 240%N); (1%Z, 241%N); ((-1)%Z, 242%N); (1%Z, 243%N); ((-1)%Z, 244%N); (1%Z, 245%N); ((-1)%Z, 470%N); (1%Z, 471%N); ((-1)%Z, 480%N); (1%Z, 481%N); ((-1)%Z, 482%N); (1%Z, 483%N)] (* C 2383 *);
   [((-1)%Z, 160%N); (1%Z, 161%N); (1%Z, 212%N); ((-1)%Z, 213%N)] (* HCCOH 2387 *);
   [((-1)%Z, 349%N); (1%Z, 350%N); ((-1)%Z, 351%N); (1%Z, 352%N); ((-1)%Z, 353%N); (1%Z, 354%N); (1%Z, 375%N); ((-1)%Z, 376%N); (1%Z, 379%N); ((-1)%Z, 380%N); ((-1)%Z, 385%N); (1%Z, 386%N); (1%Z, 427%N); ((-1)%Z, 428%N); ((-1)%Z, 443%N); (1%Z, 444%N); (1%Z, 447%N); ((-1)%Z, 448%N); ((-1)%Z, 468%N); (1%Z, 469%N); (1%Z, 470%N); ((-1)%Z, 471%N); (1%Z, 472%N); ((-1)%Z, 473%N); (1%Z, 482%N); ((-1)%Z, 483%N); (1%Z, 488%N); ((-1)%Z, 489%N); ((-1)%Z, 541%N); (1%Z, 542%N); ((-1)%Z, 543%N); (1%Z, 544%N); ((-1)%Z, 557%N); (1%Z, 558%N)] (* N 2389 *);
   [((-1)%Z, 349%N); (1%Z, 350%N); (1%Z, 351%N); ((-1)%Z, 352%N); (1%Z, 353%N); ((-1)%Z, 354%N); (2%Z, 357%N); ((-2)%Z, 358%N); ((-1)%Z, 365%N); (1%Z, 366%N); ((-1)%Z, 367%N); (1%Z, 368%N); (1%Z, 369%N); ((-1)%Z, 370%N); (1%Z, 371%N); ((-1)%Z, 372%N); (1%Z, 373%N); ((-1)%Z, 374%N); (1%Z, 383%N); ((-1)%Z, 384%N); ((-1)%Z, 389%N); (1%Z, 390%N); ((-1)%Z, 391%N); (1%Z, 392%N); (1%Z, 409%N); ((-1)%Z, 410%N); ((-1)%Z, 417%N); (1%Z, 418%N); (1%Z, 419%N); ((-1)%Z, 420%N); (1%Z, 421%N); ((-1)%Z, 422%N); (1%Z, 423%N); ((-1)%Z, 424%N); (1%Z, 425%N); ((-1)%Z, 426%N); (1%Z, 437%N); ((-1)%Z, 438%N); (1%Z, 441%N); ((-1)%Z, 442%N); (1%Z, 445%N); ((-1)%Z, 446%N); ((-1)%Z, 449%N); (1%Z, 450%N); ((-1)%Z, 451%N); (1%Z, 452%N); ((-1)%Z, 480%N); (1%Z, 481%N); ((-1)%Z, 482%N); (1%Z, 483%N); ((-1)%Z, 484%N); (1%Z, 485%N); ((-1)%Z, 486%N); (1%Z, 487%N); ((-1)%Z, 488%N); (1%Z, 489%N); ((-1)%Z, 490%N); (1%Z, 491%N); ((-1)%Z, 492%N); (1%Z, 493%N); ((-1)%Z, 494%N); (1%Z, 495%N); ((-1)%Z, 496%N); (1%Z, 497%N); ((-1)%Z, 498%N); (1%Z, 499%N); ((-1)%Z, 500%N); (1%Z, 501%N); ((-1)%Z, 502%N); (1%Z, 503%N); ((-1)%Z, 504%N); (1%Z, 505%N); (1%Z, 508%N); ((-1)%Z, 509%N); ((-1)%Z, 539%N); (1%Z, 540%N); (1%Z, 553%N); ((-1)%Z, 554%N); (1%Z, 557%N); ((-1)%Z, 558%N)] (* NO 2396 *);
   [((-1)%Z, 355%N); (1%Z, 356%N); ((-1)%Z, 357%N); (1%Z, 358%N); ((-1)%Z, 359%N); (1%Z, 360%N); ((-1)%Z, 361%N); (1%Z, 362%N); ((-1)%Z, 363%N); (1%Z, 364%N); (1%Z, 391%N); ((-1)%Z, 392%N); (1%Z, 449%N); ((-1)%Z, 450%N); (1%Z, 555%N); ((-1)%Z, 556%N)] (* N2O 2411 *);
   [(1%Z, 365%N); ((-1)%Z, 366%N); (1%Z, 367%N); ((-1)%Z, 368%N); ((-1)%Z, 369%N); (1%Z, 370%N); ((-1)%Z, 371%N); (1%Z, 372%N); ((-1)%Z, 553%N); (1%Z, 554%N); ((-1)%Z, 555%N); (1%Z, 556%N)] (* NO2 2415 *);
   [((-1)%Z, 373%N); (1%Z, 374%N); ((-1)%Z, 375%N); (1%Z, 376%N); ((-1)%Z, 377%N); (1%Z, 378%N); ((-1)%Z, 379%N); (1%Z, 380%N); ((-1)%Z, 381%N); (1%Z, 382%N); ((-1)%Z, 383%N); (1%Z, 384%N); ((-1)%Z, 385%N); (1%Z, 386%N); ((-1)%Z, 387%N); (1%Z, 388%N); ((-1)%Z, 389%N); (1%Z, 390%N); ((-1)%Z, 391%N); (1%Z, 392%N); (1%Z, 393%N); ((-1)%Z, 394%N); (1%Z, 397%N); ((-1)%Z, 398%N); (1%Z, 399%N); ((-1)%Z, 400%N); (1%Z, 409%N); ((-1)%Z, 410%N); (1%Z, 439%N); ((-1)%Z, 440%N); (1%Z, 457%N); ((-1)%Z, 458%N); (1%Z, 476%N); ((-1)%Z, 477%N); (1%Z, 478%N); ((-1)%Z, 479%N); (1%Z, 516%N); ((-1)%Z, 517%N); (1%Z, 530%N); ((-1)%Z, 531%N); ((-1)%Z, 551%N); (1%Z, 552%N)] (* NH 2418 *);
   [(1%Z, 377%N); ((-1)%Z, 378%N); (1%Z, 381%N); ((-1)%Z, 382%N); (1%Z, 387%N); ((-1)%Z, 388%N); (1%Z, 395%N); ((-1)%Z, 396%N); (1%Z, 417%N); ((-1)%Z, 418%N); ((-1)%Z, 419%N); (1%Z, 420%N); ((-1)%Z, 421%N); (1%Z, 422%N); ((-1)%Z, 423%N); (1%Z, 424%N); ((-1)%Z, 425%N); (1%Z, 426%N); (1%Z, 518%N); ((-1)%Z, 519%N); (1%Z, 551%N); ((-1)%Z, 552%N)] (* HNO 2426 *);
   [((-1)%Z, 393%N); (1%Z, 394%N); ((-1)%Z, 395%N); (1%Z, 396%N); ((-1)%Z, 397%N); (1%Z, 398%N); ((-1)%Z, 399%N); (1%Z, 400%N); (1%Z, 464%N); ((-1)%Z, 465%N); (1%Z, 522%N); ((-1)%Z, 523%N); (1%Z, 528%N); ((-1)%Z, 529%N); (1%Z, 536%N); ((-1)%Z, 537%N); (1%Z, 545%N); ((-1)%Z, 546%N); (1%Z, 547%N); ((-1)%Z, 548%N); (1%Z, 549%N); ((-1)%Z, 550%N)] (* NH2 2431 *);
   [((-1)%Z, 401%N); (1%Z, 402%N); ((-1)%Z, 403%N); (1%Z, 404%N); ((-1)%Z, 405%N); (1%Z, 406%N); ((-1)%Z, 407%N); (1%Z, 408%N); ((-1)%Z, 409%N); (1%Z, 410%N); ((-1)%Z, 411%N); (1%Z, 412%N); ((-1)%Z, 413%N); (1%Z, 414%N); ((-1)%Z, 415%N); (1%Z, 416%N)] (* NNH 2436 *);
   [((-1)%Z, 427%N); (1%Z, 428%N); ((-1)%Z, 429%N); (1%Z, 430%N); ((-1)%Z, 431%N); (1%Z, 432%N); ((-1)%Z, 433%N); (1%Z, 434%N); ((-1)%Z, 435%N); (1%Z, 436%N); (1%Z, 453%N); ((-1)%Z, 454%N); (1%Z, 459%N); ((-1)%Z, 460%N); (1%Z, 470%N); ((-1)%Z, 471%N); (1%Z, 480%N); ((-1)%Z, 481%N); ((-1)%Z, 553%N); (1%Z, 554%N)] (* CN 2440 *);
   [(1%Z, 429%N); ((-1)%Z, 430%N); (1%Z, 433%N); ((-1)%Z, 434%N); ((-1)%Z, 437%N); (1%Z, 438%N); ((-1)%Z, 439%N); (1%Z, 440%N); ((-1)%Z, 441%N); (1%Z, 442%N); ((-1)%Z, 443%N); (1%Z, 444%N); ((-1)%Z, 445%N); (1%Z, 446%N); ((-1)%Z, 447%N); (1%Z, 448%N); ((-1)%Z, 449%N); (1%Z, 450%N); ((-1)%Z, 451%N); (1%Z, 452%N); (1%Z, 455%N); ((-1)%Z, 456%N); (1%Z, 486%N); ((-1)%Z, 487%N); (1%Z, 520%N); ((-1)%Z, 521%N); (1%Z, 524%N); ((-1)%Z, 525%N); (1%Z, 526%N); ((-1)%Z, 527%N); (1%Z, 553%N); ((-1)%Z, 554%N); ((-1)%Z, 555%N); (1%Z, 556%N)] (* NCO 2445 *);
   [(1%Z, 431%N); ((-1)%Z, 432%N); (1%Z, 435%N); ((-1)%Z, 436%N); ((-1)%Z, 453%N); (1%Z, 454%N); ((-1)%Z, 455%N); (1%Z, 456%N); ((-1)%Z, 457%N); (1%Z, 458%N); ((-1)%Z, 459%N); (1%Z, 460%N); ((-1)%Z, 461%N); (1%Z, 462%N); ((-1)%Z, 463%N); ((-1)%Z, 464%N); (1%Z, 465%N); ((-1)%Z, 466%N); (1%Z, 467%N); (1%Z, 472%N); ((-1)%Z, 473%N); (1%Z, 476%N); ((-1)%Z, 477%N); (1%Z, 478%N); ((-1)%Z, 479%N); (1%Z, 484%N); ((-1)%Z, 485%N); (1%Z, 492%N); ((-1)%Z, 493%N); (1%Z, 498%N); ((-1)%Z, 499%N); (1%Z, 502%N); ((-1)%Z, 503%N); (1%Z, 508%N); ((-1)%Z, 509%N); (1%Z, 534%N); ((-1)%Z, 535%N); (1%Z, 543%N); ((-1)%Z, 544%N)] (* HCN 2452 *);
   [(1%Z, 461%N); ((-1)%Z, 462%N); ((-1)%Z, 538%N)] (* HOCN 2460 *);
   [(1%Z, 463%N); (1%Z, 490%N); ((-1)%Z, 491%N); (1%Z, 496%N); ((-1)%Z, 497%N); ((-1)%Z, 516%N); (1%Z, 517%N); ((-1)%Z, 518%N); (1%Z, 519%N); ((-1)%Z, 520%N); (1%Z, 521%N); ((-1)%Z, 522%N); (1%Z, 523%N); ((-1)%Z, 524%N); (1%Z, 525%N); ((-1)%Z, 526%N); (1%Z, 527%N); ((-1)%Z, 528%N); (1%Z, 529%N); ((-1)%Z, 530%N); (1%Z, 531%N); (1%Z, 532%N); ((-1)%Z, 533%N); (1%Z, 538%N)] (* HNCO 2462 *);
   [(1%Z, 466%N); ((-1)%Z, 467%N); ((-1)%Z, 468%N); (1%Z, 469%N); (1%Z, 504%N); ((-1)%Z, 505%N); (1%Z, 541%N); ((-1)%Z, 542%N)] (* H2CN 2468 *);
   [(1%Z, 474%N); ((-1)%Z, 475%N); ((-1)%Z, 506%N); (1%Z, 507%N); ((-1)%Z, 508%N); (1%Z, 509%N); ((-1)%Z, 510%N); (1%Z, 511%N); ((-1)%Z, 512%N); (1%Z, 513%N); ((-1)%Z, 514%N); (1%Z, 515%N)] (* HCNN 2471 *);
   [(1%Z, 494%N); ((-1)%Z, 495%N); (1%Z, 500%N); ((-1)%Z, 501%N); ((-1)%Z, 532%N); (1%Z, 533%N); ((-1)%Z, 534%N); (1%Z, 535%N); ((-1)%Z, 536%N); (1%Z, 537%N); (1%Z, 539%N); ((-1)%Z, 540%N)] (* HCNO 2475 *);
   [((-1)%Z, 545%N); (1%Z, 546%N); ((-1)%Z, 547%N); (1%Z, 548%N); ((-1)%Z, 549%N); (1%Z, 550%N)] (* NH3 2479 *);
   [(1%Z, 560%N); ((-1)%Z, 561%N); (1%Z, 574%N); ((-1)%Z, 575%N); (1%Z, 578%N); ((-1)%Z, 579%N); (1%Z, 582%N); ((-1)%Z, 583%N); (1%Z, 588%N); ((-1)%Z, 589%N); ((-1)%Z, 590%N); ((-1)%Z, 591%N); ((-1)%Z, 592%N); ((-1)%Z, 593%N); (1%Z, 594%N); ((-1)%Z, 595%N); (1%Z, 596%N); ((-1)%Z, 597%N); (1%Z, 598%N); ((-1)%Z, 599%N); (1%Z, 600%N)] (* CH2CHO 2481 *);
   [(1%Z, 562%N); ((-1)%Z, 563%N); ((-1)%Z, 578%N); (1%Z, 579%N); ((-1)%Z, 580%N); ((-1)%Z, 581%N); ((-1)%Z, 582%N); (1%Z, 583%N); ((-1)%Z, 584%N); ((-1)%Z, 585%N); ((-1)%Z, 586%N); ((-1)%Z, 587%N)] (* CH3CHO 2486 *);
   [(1%Z, 601%N); ((-1)%Z, 602%N); ((-1)%Z, 603%N); (1%Z, 604%N); ((-1)%Z, 605%N); (1%Z, 606%N); ((-1)%Z, 607%N); (1%Z, 608%N); (1%Z, 609%N); ((-1)%Z, 610%N); (1%Z, 611%N); (1%Z, 616%N); ((-1)%Z, 617%N); (1%Z, 622%N); ((-1)%Z, 623%N)] (* C3H8 2490 *);
   [(1%Z, 603%N); ((-1)%Z, 604%N); (1%Z, 605%N); ((-1)%Z, 606%N); (1%Z, 607%N); ((-1)%Z, 608%N); ((-1)%Z, 609%N); (1%Z, 610%N); ((-1)%Z, 611%N); (1%Z, 612%N); ((-1)%Z, 613%N); ((-1)%Z, 614%N); (1%Z, 615%N); ((-1)%Z, 616%N); (1%Z, 617%N); ((-1)%Z, 618%N); (1%Z, 619%N); ((-1)%Z, 620%N); (1%Z, 621%N); ((-1)%Z, 622%N); (1%Z, 623%N); ((-1)%Z, 624%N); ((-1)%Z, 625%N); (1%Z, 626%N)] (* C3H7 2494 *)].

(** Gri30; GetLindRateCoeff is src/equations/ideal_gas_mix/mechanism/Gri30.cpp:2501-2530 *)
Definition gri : tables := mkTables gri_weights gri_third gri_reactions gri_production LindGri.
