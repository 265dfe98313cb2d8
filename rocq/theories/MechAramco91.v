(** The mechanism AramcoMech_woC3H4_91spec: tables transcribed from src/equations/ideal_gas_mix/mechanism/AramcoMech_woC3H4_91spec.cpp and include/fub/equations/ideal_gas_mix/mechanism/AramcoMech_woC3H4_91spec.hpp.
    Decimal and hexadecimal literals of the code are written as the fractions which they denote. *)
From Coq Require Import String List ZArith QArith.
From Verif Require Import MechanismModel.
Import ListNotations.
Local Open Scope Q_scope.

(** The labels of the species without the leading s, include/fub/equations/ideal_gas_mix/mechanism/AramcoMech_woC3H4_91spec.hpp:41-131 *)
Definition aramco91_labels : list string := ["H"; "OH"; "HO2"; "CO2"; "HCOH"; "HOCH2O2H"; "CH3OH"; "CH3O2"; "CH2Y"; "C2H6"; "C2H2"; "C2H2OH"; "HO2CH2CO"; "CH3CO3H"; "C2H5O"; "C2H5O2H"; "C2H3O1"; "C2H5CO"; "CH2OCH2O2H"; "HO2CH2OCHO"; "CH3OCO"; "H2"; "OHY"; "H2O2"; "CH2O"; "O2CHO"; "HOCH2O2"; "CH2OH"; "CH4"; "C"; "C2H5"; "C2H"; "CH3CO"; "CH2CO"; "CH3CO3"; "PC2H4OH"; "C2H5O2"; "CH3COCH3"; "C2H3CHO"; "CH3OCH3"; "CH3OCH2O2H"; "OCH2OCHO"; "CH2OCHO"; "C2H3OOH"; "O"; "H2O"; "AR"; "HCO"; "HOCHO"; "OCH2O2H"; "CH3O"; "CH3"; "CH"; "C2H4"; "CH3CHO"; "CH2CHO"; "HCCO"; "CH3CO2"; "SC2H4OH"; "C2H4O2H"; "CH3COCH2"; "C2H3CO"; "CH3OCH2"; "CH3OCH2O"; "HOCH2OCO"; "HE"; "C2H3CHOCH2"; "O2"; "N2"; "CO"; "HO2CHO"; "OCHO"; "HOCH2O"; "CH3O2H"; "CH2"; "CHY"; "C2H3"; "C2H3OH"; "O2CH2CHO"; "HCCOH"; "C2H5OH"; "O2C2H4OH"; "C2H4O1"; "CH3COCH2O2"; "C2H5CHO"; "CH3OCH2O2"; "O2CH2OCH2O2H"; "CH3OCHO"; "H2CC"; "C3H5OH"; "CH2O2H"]%string.

(** [getSpeciesNames], src/equations/ideal_gas_mix/mechanism/AramcoMech_woC3H4_91spec.cpp:6332-6364 (trailing blanks removed as in :6365-6367) *)
Definition aramco91_names : list string := ["H"; "OH"; "HO2"; "CO2"; "HCOH"; "HOCH2O2H"; "CH3OH"; "CH3O2"; "CH2Y"; "C2H6"; "C2H2"; "C2H2OH"; "HO2CH2CO"; "CH3CO3H"; "C2H5O"; "C2H5O2H"; "C2H3O1"; "C2H5CO"; "CH2OCH2O2H"; "HO2CH2OCHO"; "CH3OCO"; "H2"; "OHY"; "H2O2"; "CH2O"; "O2CHO"; "HOCH2O2"; "CH2OH"; "CH4"; "C"; "C2H5"; "C2H"; "CH3CO"; "CH2CO"; "CH3CO3"; "PC2H4OH"; "C2H5O2"; "CH3COCH3"; "C2H3CHO"; "CH3OCH3"; "CH3OCH2O2H"; "OCH2OCHO"; "CH2OCHO"; "C2H3OOH"; "O"; "H2O"; "AR"; "HCO"; "HOCHO"; "OCH2O2H"; "CH3O"; "CH3"; "CH"; "C2H4"; "CH3CHO"; "CH2CHO"; "HCCO"; "CH3CO2"; "SC2H4OH"; "C2H4O2H"; "CH3COCH2"; "C2H3CO"; "CH3OCH2"; "CH3OCH2O"; "HOCH2OCO"; "HE"; "C2H3CHOCH2"; "O2"; "N2"; "CO"; "HO2CHO"; "OCHO"; "HOCH2O"; "CH3O2H"; "CH2"; "CHY"; "C2H3"; "C2H3OH"; "O2CH2CHO"; "HCCOH"; "C2H5OH"; "O2C2H4OH"; "C2H4O1"; "CH3COCH2O2"; "C2H5CHO"; "CH3OCH2O2"; "O2CH2OCH2O2H"; "CH3OCHO"; "H2CC"; "C3H5OH"; "CH2O2H"]%string.

(** [getMolarMass], src/equations/ideal_gas_mix/mechanism/AramcoMech_woC3H4_91spec.cpp:6238-6328 *)
Definition aramco91_weights : list Q :=
  [(1134907106097365 # 1125899906842624) (* H *);
   (4787326403894837 # 281474976710656) (* OH *);
   (4645463015632667 # 140737488355328) (* HO2 *);
   (6193856862517985 # 140737488355328) (* CO2 *);
   (2112891912678539 # 70368744177664) (* HCOH *);
   (2253277557312979 # 35184372088832) (* HOCH2O2H *);
   (1127377650470355 # 35184372088832) (* CH3OH *);
   (6619447027304497 # 140737488355328) (* CH3O2 *);
   (3947968023343661 # 281474976710656) (* CH2Y *);
   (2115847399934001 # 70368744177664) (* C2H6 *);
   (458030155852415 # 17592186044416) (* C2H2 *);
   (3028952224383369 # 70368744177664) (* C2H2OH *);
   (5280752038068617 # 70368744177664) (* HO2CH2CO *);
   (2675841866099851 # 35184372088832) (* CH3CO3H *);
   (792703903161385 # 17592186044416) (* C2H5O *);
   (4367647213619249 # 70368744177664) (* C2H5O2H *);
   (3028952224383369 # 70368744177664) (* C2H3O1 *);
   (8031888460438569 # 140737488355328) (* C2H5CO *);
   (1355653856582697 # 17592186044416) (* CH2OCH2O2H *);
   (3238791819521163 # 35184372088832) (* HO2CH2OCHO *);
   (4154852131225993 # 70368744177664) (* CH3OCO *);
   (1134907106097365 # 562949953421312) (* H2 *);
   (4787326403894837 # 281474976710656) (* OHY *);
   (4787326403894837 # 140737488355328) (* H2O2 *);
   (2112891912678539 # 70368744177664) (* CH2O *);
   (2146880016116351 # 35184372088832) (* O2CHO *);
   (8871246840989745 # 140737488355328) (* HOCH2O2 *);
   (4367647213619249 # 140737488355328) (* CH2OH *);
   (564427697049043 # 35184372088832) (* CH4 *);
   (6761028940589957 # 562949953421312) (* C *);
   (8179662823211663 # 281474976710656) (* C2H5 *);
   (3522377858557149 # 140737488355328) (* C2H *);
   (3028952224383369 # 70368744177664) (* CH3CO *);
   (739505132563071 # 17592186044416) (* CH2CO *);
   (5280752038068617 # 70368744177664) (* CH3CO3 *);
   (792703903161385 # 17592186044416) (* PC2H4OH *);
   (1074178879872041 # 17592186044416) (* C2H5O2 *);
   (2043437962175185 # 35184372088832) (* CH3COCH3 *);
   (3945012536088199 # 70368744177664) (* C2H3CHO *);
   (3241747306776625 # 70368744177664) (* CH3OCH3 *);
   (5493547120461873 # 70368744177664) (* CH3OCH2O2H *);
   (5280752038068617 # 70368744177664) (* OCH2OCHO *);
   (4154852131225993 # 70368744177664) (* CH2OCHO *);
   (2112891912678539 # 35184372088832) (* C2H3OOH *);
   (16 # 1) (* O *);
   (2535526590209589 # 140737488355328) (* H2O *);
   (5622181184818643 # 140737488355328) (* AR *);
   (1020980109273727 # 35184372088832) (* HCO *);
   (3238791819521163 # 70368744177664) (* HOCHO *);
   (8871246840989745 # 140737488355328) (* OCH2O2H *);
   (4367647213619249 # 140737488355328) (* CH3O *);
   (2115847399934001 # 140737488355328) (* CH3 *);
   (458030155852415 # 35184372088832) (* CH *);
   (3947968023343661 # 140737488355328) (* C2H4 *);
   (6199767837028909 # 140737488355328) (* CH3CHO *);
   (3028952224383369 # 70368744177664) (* CH2CHO *);
   (5774177672242397 # 140737488355328) (* HCCO *);
   (4154852131225993 # 70368744177664) (* CH3CO2 *);
   (792703903161385 # 17592186044416) (* SC2H4OH *);
   (1074178879872041 # 17592186044416) (* C2H4O2H *);
   (8031888460438569 # 140737488355328) (* CH3COCH2 *);
   (1937040420978557 # 35184372088832) (* C2H3CO *);
   (792703903161385 # 17592186044416) (* CH3OCH2 *);
   (1074178879872041 # 17592186044416) (* CH3OCH2O *);
   (5280752038068617 # 70368744177664) (* HOCH2OCO *);
   (5680080587528025 # 281474976710656) (* HE *);
   (2466002270962057 # 35184372088832) (* C2H3CHOCH2 *);
   (32 # 1) (* O2 *);
   (7886928847432581 # 281474976710656) (* N2 *);
   (3942057048832737 # 140737488355328) (* CO *);
   (4364691726363787 # 70368744177664) (* HO2CHO *);
   (1583930062695039 # 35184372088832) (* OCHO *);
   (6619447027304497 # 140737488355328) (* HOCH2O *);
   (6761310415566667 # 140737488355328) (* CH3O2H *);
   (3947968023343661 # 281474976710656) (* CH2 *);
   (458030155852415 # 35184372088832) (* CHY *);
   (7612209270162981 # 281474976710656) (* C2H3 *);
   (6199767837028909 # 140737488355328) (* C2H3OH *);
   (5280752038068617 # 70368744177664) (* O2CH2CHO *);
   (739505132563071 # 17592186044416) (* HCCOH *);
   (3241747306776625 # 70368744177664) (* C2H5OH *);
   (1355653856582697 # 17592186044416) (* O2C2H4OH *);
   (6199767837028909 # 140737488355328) (* C2H4O1 *);
   (1566936010976133 # 17592186044416) (* CH3COCH2O2 *);
   (2043437962175185 # 35184372088832) (* C2H5CHO *);
   (1355653856582697 # 17592186044416) (* CH3OCH2O2 *);
   (1918603810004009 # 17592186044416) (* O2CH2OCH2O2H *);
   (2112891912678539 # 35184372088832) (* CH3OCHO *);
   (458030155852415 # 17592186044416) (* H2CC *);
   (2043437962175185 # 35184372088832) (* C3H5OH *);
   (6619447027304497 # 140737488355328) (* CH2O2H *)].

(** The concentrations of third bodies as combinations of concentrations, src/equations/ideal_gas_mix/mechanism/AramcoMech_woC3H4_91spec.cpp:51-811 *)
Definition aramco91_third : list (list (Q * nat)) :=
  [[((1 # 1)%Q, 0)%nat; ((1 # 1)%Q, 1)%nat; ((1 # 1)%Q, 2)%nat; ((4278419646001971 # 1125899906842624)%Q, 3)%nat; ((1 # 1)%Q, 4)%nat; ((1 # 1)%Q, 5)%nat; ((1 # 1)%Q, 6)%nat; ((1 # 1)%Q, 7)%nat; ((1 # 1)%Q, 8)%nat; ((3 # 1)%Q, 9)%nat; ((1 # 1)%Q, 10)%nat; ((1 # 1)%Q, 11)%nat; ((1 # 1)%Q, 12)%nat; ((1 # 1)%Q, 13)%nat; ((1 # 1)%Q, 14)%nat; ((1 # 1)%Q, 15)%nat; ((1 # 1)%Q, 16)%nat; ((1 # 1)%Q, 17)%nat; ((1 # 1)%Q, 18)%nat; ((1 # 1)%Q, 19)%nat; ((1 # 1)%Q, 20)%nat; ((5 # 2)%Q, 21)%nat; ((1 # 1)%Q, 22)%nat; ((1 # 1)%Q, 23)%nat; ((1 # 1)%Q, 24)%nat; ((1 # 1)%Q, 25)%nat; ((1 # 1)%Q, 26)%nat; ((1 # 1)%Q, 27)%nat; ((2 # 1)%Q, 28)%nat; ((1 # 1)%Q, 29)%nat; ((1 # 1)%Q, 30)%nat; ((1 # 1)%Q, 31)%nat; ((1 # 1)%Q, 32)%nat; ((1 # 1)%Q, 33)%nat; ((1 # 1)%Q, 34)%nat; ((1 # 1)%Q, 35)%nat; ((1 # 1)%Q, 36)%nat; ((1 # 1)%Q, 37)%nat; ((1 # 1)%Q, 38)%nat; ((1 # 1)%Q, 39)%nat; ((1 # 1)%Q, 40)%nat; ((1 # 1)%Q, 41)%nat; ((1 # 1)%Q, 42)%nat; ((1 # 1)%Q, 43)%nat; ((1 # 1)%Q, 44)%nat; ((12 # 1)%Q, 45)%nat; ((1 # 1)%Q, 46)%nat; ((1 # 1)%Q, 47)%nat; ((1 # 1)%Q, 48)%nat; ((1 # 1)%Q, 49)%nat; ((1 # 1)%Q, 50)%nat; ((1 # 1)%Q, 51)%nat; ((1 # 1)%Q, 52)%nat; ((1 # 1)%Q, 53)%nat; ((1 # 1)%Q, 54)%nat; ((1 # 1)%Q, 55)%nat; ((1 # 1)%Q, 56)%nat; ((1 # 1)%Q, 57)%nat; ((1 # 1)%Q, 58)%nat; ((1 # 1)%Q, 59)%nat; ((1 # 1)%Q, 60)%nat; ((1 # 1)%Q, 61)%nat; ((1 # 1)%Q, 62)%nat; ((1 # 1)%Q, 63)%nat; ((1 # 1)%Q, 64)%nat; ((7475975381435023 # 9007199254740992)%Q, 65)%nat; ((1 # 1)%Q, 66)%nat; ((1 # 1)%Q, 67)%nat; ((1 # 1)%Q, 68)%nat; ((4278419646001971 # 2251799813685248)%Q, 69)%nat; ((1 # 1)%Q, 70)%nat; ((1 # 1)%Q, 71)%nat; ((1 # 1)%Q, 72)%nat; ((1 # 1)%Q, 73)%nat; ((1 # 1)%Q, 74)%nat; ((1 # 1)%Q, 75)%nat; ((1 # 1)%Q, 76)%nat; ((1 # 1)%Q, 77)%nat; ((1 # 1)%Q, 78)%nat; ((1 # 1)%Q, 79)%nat; ((1 # 1)%Q, 80)%nat; ((1 # 1)%Q, 81)%nat; ((1 # 1)%Q, 82)%nat; ((1 # 1)%Q, 83)%nat; ((1 # 1)%Q, 84)%nat; ((1 # 1)%Q, 85)%nat; ((1 # 1)%Q, 86)%nat; ((1 # 1)%Q, 87)%nat; ((1 # 1)%Q, 88)%nat; ((1 # 1)%Q, 89)%nat; ((1 # 1)%Q, 90)%nat] (* mM1 *);
   [((1 # 1)%Q, 0)%nat; ((1 # 1)%Q, 1)%nat; ((1 # 1)%Q, 2)%nat; ((4278419646001971 # 1125899906842624)%Q, 3)%nat; ((1 # 1)%Q, 4)%nat; ((1 # 1)%Q, 5)%nat; ((1 # 1)%Q, 6)%nat; ((1 # 1)%Q, 7)%nat; ((1 # 1)%Q, 8)%nat; ((3 # 1)%Q, 9)%nat; ((1 # 1)%Q, 10)%nat; ((1 # 1)%Q, 11)%nat; ((1 # 1)%Q, 12)%nat; ((1 # 1)%Q, 13)%nat; ((1 # 1)%Q, 14)%nat; ((1 # 1)%Q, 15)%nat; ((1 # 1)%Q, 16)%nat; ((1 # 1)%Q, 17)%nat; ((1 # 1)%Q, 18)%nat; ((1 # 1)%Q, 19)%nat; ((1 # 1)%Q, 20)%nat; ((5 # 2)%Q, 21)%nat; ((1 # 1)%Q, 22)%nat; ((1 # 1)%Q, 23)%nat; ((1 # 1)%Q, 24)%nat; ((1 # 1)%Q, 25)%nat; ((1 # 1)%Q, 26)%nat; ((1 # 1)%Q, 27)%nat; ((2 # 1)%Q, 28)%nat; ((1 # 1)%Q, 29)%nat; ((1 # 1)%Q, 30)%nat; ((1 # 1)%Q, 31)%nat; ((1 # 1)%Q, 32)%nat; ((1 # 1)%Q, 33)%nat; ((1 # 1)%Q, 34)%nat; ((1 # 1)%Q, 35)%nat; ((1 # 1)%Q, 36)%nat; ((1 # 1)%Q, 37)%nat; ((1 # 1)%Q, 38)%nat; ((1 # 1)%Q, 39)%nat; ((1 # 1)%Q, 40)%nat; ((1 # 1)%Q, 41)%nat; ((1 # 1)%Q, 42)%nat; ((1 # 1)%Q, 43)%nat; ((1 # 1)%Q, 44)%nat; ((12 # 1)%Q, 45)%nat; ((7475975381435023 # 9007199254740992)%Q, 46)%nat; ((1 # 1)%Q, 47)%nat; ((1 # 1)%Q, 48)%nat; ((1 # 1)%Q, 49)%nat; ((1 # 1)%Q, 50)%nat; ((1 # 1)%Q, 51)%nat; ((1 # 1)%Q, 52)%nat; ((1 # 1)%Q, 53)%nat; ((1 # 1)%Q, 54)%nat; ((1 # 1)%Q, 55)%nat; ((1 # 1)%Q, 56)%nat; ((1 # 1)%Q, 57)%nat; ((1 # 1)%Q, 58)%nat; ((1 # 1)%Q, 59)%nat; ((1 # 1)%Q, 60)%nat; ((1 # 1)%Q, 61)%nat; ((1 # 1)%Q, 62)%nat; ((1 # 1)%Q, 63)%nat; ((1 # 1)%Q, 64)%nat; ((7475975381435023 # 9007199254740992)%Q, 65)%nat; ((1 # 1)%Q, 66)%nat; ((1 # 1)%Q, 67)%nat; ((1 # 1)%Q, 68)%nat; ((4278419646001971 # 2251799813685248)%Q, 69)%nat; ((1 # 1)%Q, 70)%nat; ((1 # 1)%Q, 71)%nat; ((1 # 1)%Q, 72)%nat; ((1 # 1)%Q, 73)%nat; ((1 # 1)%Q, 74)%nat; ((1 # 1)%Q, 75)%nat; ((1 # 1)%Q, 76)%nat; ((1 # 1)%Q, 77)%nat; ((1 # 1)%Q, 78)%nat; ((1 # 1)%Q, 79)%nat; ((1 # 1)%Q, 80)%nat; ((1 # 1)%Q, 81)%nat; ((1 # 1)%Q, 82)%nat; ((1 # 1)%Q, 83)%nat; ((1 # 1)%Q, 84)%nat; ((1 # 1)%Q, 85)%nat; ((1 # 1)%Q, 86)%nat; ((1 # 1)%Q, 87)%nat; ((1 # 1)%Q, 88)%nat; ((1 # 1)%Q, 89)%nat; ((1 # 1)%Q, 90)%nat] (* mM2 *);
   [((1 # 1)%Q, 0)%nat; ((1 # 1)%Q, 1)%nat; ((1 # 1)%Q, 2)%nat; ((2 # 1)%Q, 3)%nat; ((1 # 1)%Q, 4)%nat; ((1 # 1)%Q, 5)%nat; ((1 # 1)%Q, 6)%nat; ((1 # 1)%Q, 7)%nat; ((1 # 1)%Q, 8)%nat; ((3 # 1)%Q, 9)%nat; ((1 # 1)%Q, 10)%nat; ((1 # 1)%Q, 11)%nat; ((1 # 1)%Q, 12)%nat; ((1 # 1)%Q, 13)%nat; ((1 # 1)%Q, 14)%nat; ((1 # 1)%Q, 15)%nat; ((1 # 1)%Q, 16)%nat; ((1 # 1)%Q, 17)%nat; ((1 # 1)%Q, 18)%nat; ((1 # 1)%Q, 19)%nat; ((1 # 1)%Q, 20)%nat; ((5 # 2)%Q, 21)%nat; ((1 # 1)%Q, 22)%nat; ((1 # 1)%Q, 23)%nat; ((1 # 1)%Q, 24)%nat; ((1 # 1)%Q, 25)%nat; ((1 # 1)%Q, 26)%nat; ((1 # 1)%Q, 27)%nat; ((2 # 1)%Q, 28)%nat; ((1 # 1)%Q, 29)%nat; ((1 # 1)%Q, 30)%nat; ((1 # 1)%Q, 31)%nat; ((1 # 1)%Q, 32)%nat; ((1 # 1)%Q, 33)%nat; ((1 # 1)%Q, 34)%nat; ((1 # 1)%Q, 35)%nat; ((1 # 1)%Q, 36)%nat; ((1 # 1)%Q, 37)%nat; ((1 # 1)%Q, 38)%nat; ((1 # 1)%Q, 39)%nat; ((1 # 1)%Q, 40)%nat; ((1 # 1)%Q, 41)%nat; ((1 # 1)%Q, 42)%nat; ((1 # 1)%Q, 43)%nat; ((1 # 1)%Q, 44)%nat; ((12 # 1)%Q, 45)%nat; ((3 # 4)%Q, 46)%nat; ((1 # 1)%Q, 47)%nat; ((1 # 1)%Q, 48)%nat; ((1 # 1)%Q, 49)%nat; ((1 # 1)%Q, 50)%nat; ((1 # 1)%Q, 51)%nat; ((1 # 1)%Q, 52)%nat; ((1 # 1)%Q, 53)%nat; ((1 # 1)%Q, 54)%nat; ((1 # 1)%Q, 55)%nat; ((1 # 1)%Q, 56)%nat; ((1 # 1)%Q, 57)%nat; ((1 # 1)%Q, 58)%nat; ((1 # 1)%Q, 59)%nat; ((1 # 1)%Q, 60)%nat; ((1 # 1)%Q, 61)%nat; ((1 # 1)%Q, 62)%nat; ((1 # 1)%Q, 63)%nat; ((1 # 1)%Q, 64)%nat; ((3 # 4)%Q, 65)%nat; ((1 # 1)%Q, 66)%nat; ((1 # 1)%Q, 67)%nat; ((1 # 1)%Q, 68)%nat; ((3 # 2)%Q, 69)%nat; ((1 # 1)%Q, 70)%nat; ((1 # 1)%Q, 71)%nat; ((1 # 1)%Q, 72)%nat; ((1 # 1)%Q, 73)%nat; ((1 # 1)%Q, 74)%nat; ((1 # 1)%Q, 75)%nat; ((1 # 1)%Q, 76)%nat; ((1 # 1)%Q, 77)%nat; ((1 # 1)%Q, 78)%nat; ((1 # 1)%Q, 79)%nat; ((1 # 1)%Q, 80)%nat; ((1 # 1)%Q, 81)%nat; ((1 # 1)%Q, 82)%nat; ((1 # 1)%Q, 83)%nat; ((1 # 1)%Q, 84)%nat; ((1 # 1)%Q, 85)%nat; ((1 # 1)%Q, 86)%nat; ((1 # 1)%Q, 87)%nat; ((1 # 1)%Q, 88)%nat; ((1 # 1)%Q, 89)%nat; ((1 # 1)%Q, 90)%nat] (* mM3 *);
   [((1 # 1)%Q, 0)%nat; ((1 # 1)%Q, 1)%nat; ((1 # 1)%Q, 2)%nat; ((1 # 1)%Q, 3)%nat; ((1 # 1)%Q, 4)%nat; ((1 # 1)%Q, 5)%nat; ((1 # 1)%Q, 6)%nat; ((1 # 1)%Q, 7)%nat; ((1 # 1)%Q, 8)%nat; ((3 # 1)%Q, 9)%nat; ((1 # 1)%Q, 10)%nat; ((1 # 1)%Q, 11)%nat; ((1 # 1)%Q, 12)%nat; ((1 # 1)%Q, 13)%nat; ((1 # 1)%Q, 14)%nat; ((1 # 1)%Q, 15)%nat; ((1 # 1)%Q, 16)%nat; ((1 # 1)%Q, 17)%nat; ((1 # 1)%Q, 18)%nat; ((1 # 1)%Q, 19)%nat; ((1 # 1)%Q, 20)%nat; ((1643813863990231 # 2251799813685248)%Q, 21)%nat; ((1 # 1)%Q, 22)%nat; ((1 # 1)%Q, 23)%nat; ((1 # 1)%Q, 24)%nat; ((1 # 1)%Q, 25)%nat; ((1 # 1)%Q, 26)%nat; ((1 # 1)%Q, 27)%nat; ((2 # 1)%Q, 28)%nat; ((1 # 1)%Q, 29)%nat; ((1 # 1)%Q, 30)%nat; ((1 # 1)%Q, 31)%nat; ((1 # 1)%Q, 32)%nat; ((1 # 1)%Q, 33)%nat; ((1 # 1)%Q, 34)%nat; ((1 # 1)%Q, 35)%nat; ((1 # 1)%Q, 36)%nat; ((1 # 1)%Q, 37)%nat; ((1 # 1)%Q, 38)%nat; ((1 # 1)%Q, 39)%nat; ((1 # 1)%Q, 40)%nat; ((1 # 1)%Q, 41)%nat; ((1 # 1)%Q, 42)%nat; ((1 # 1)%Q, 43)%nat; ((1 # 1)%Q, 44)%nat; ((8219069319951155 # 2251799813685248)%Q, 45)%nat; ((3422735716801577 # 9007199254740992)%Q, 46)%nat; ((1 # 1)%Q, 47)%nat; ((1 # 1)%Q, 48)%nat; ((1 # 1)%Q, 49)%nat; ((1 # 1)%Q, 50)%nat; ((1 # 1)%Q, 51)%nat; ((1 # 1)%Q, 52)%nat; ((1 # 1)%Q, 53)%nat; ((1 # 1)%Q, 54)%nat; ((1 # 1)%Q, 55)%nat; ((1 # 1)%Q, 56)%nat; ((1 # 1)%Q, 57)%nat; ((1 # 1)%Q, 58)%nat; ((1 # 1)%Q, 59)%nat; ((1 # 1)%Q, 60)%nat; ((1 # 1)%Q, 61)%nat; ((1 # 1)%Q, 62)%nat; ((1 # 1)%Q, 63)%nat; ((1 # 1)%Q, 64)%nat; ((1 # 1)%Q, 65)%nat; ((1 # 1)%Q, 66)%nat; ((1 # 1)%Q, 67)%nat; ((1 # 1)%Q, 68)%nat; ((1 # 1)%Q, 69)%nat; ((1 # 1)%Q, 70)%nat; ((1 # 1)%Q, 71)%nat; ((1 # 1)%Q, 72)%nat; ((1 # 1)%Q, 73)%nat; ((1 # 1)%Q, 74)%nat; ((1 # 1)%Q, 75)%nat; ((1 # 1)%Q, 76)%nat; ((1 # 1)%Q, 77)%nat; ((1 # 1)%Q, 78)%nat; ((1 # 1)%Q, 79)%nat; ((1 # 1)%Q, 80)%nat; ((1 # 1)%Q, 81)%nat; ((1 # 1)%Q, 82)%nat; ((1 # 1)%Q, 83)%nat; ((1 # 1)%Q, 84)%nat; ((1 # 1)%Q, 85)%nat; ((1 # 1)%Q, 86)%nat; ((1 # 1)%Q, 87)%nat; ((1 # 1)%Q, 88)%nat; ((1 # 1)%Q, 89)%nat; ((1 # 1)%Q, 90)%nat] (* mM4 *);
   [((1 # 1)%Q, 0)%nat; ((1 # 1)%Q, 1)%nat; ((1 # 1)%Q, 2)%nat; ((4278419646001971 # 1125899906842624)%Q, 3)%nat; ((1 # 1)%Q, 4)%nat; ((1 # 1)%Q, 5)%nat; ((1 # 1)%Q, 6)%nat; ((1 # 1)%Q, 7)%nat; ((1 # 1)%Q, 8)%nat; ((3 # 1)%Q, 9)%nat; ((1 # 1)%Q, 10)%nat; ((1 # 1)%Q, 11)%nat; ((1 # 1)%Q, 12)%nat; ((1 # 1)%Q, 13)%nat; ((1 # 1)%Q, 14)%nat; ((1 # 1)%Q, 15)%nat; ((1 # 1)%Q, 16)%nat; ((1 # 1)%Q, 17)%nat; ((1 # 1)%Q, 18)%nat; ((1 # 1)%Q, 19)%nat; ((1 # 1)%Q, 20)%nat; ((5854679515581645 # 4503599627370496)%Q, 21)%nat; ((1 # 1)%Q, 22)%nat; ((1 # 1)%Q, 23)%nat; ((1 # 1)%Q, 24)%nat; ((1 # 1)%Q, 25)%nat; ((1 # 1)%Q, 26)%nat; ((1 # 1)%Q, 27)%nat; ((2 # 1)%Q, 28)%nat; ((1 # 1)%Q, 29)%nat; ((1 # 1)%Q, 30)%nat; ((1 # 1)%Q, 31)%nat; ((1 # 1)%Q, 32)%nat; ((1 # 1)%Q, 33)%nat; ((1 # 1)%Q, 34)%nat; ((1 # 1)%Q, 35)%nat; ((1 # 1)%Q, 36)%nat; ((1 # 1)%Q, 37)%nat; ((1 # 1)%Q, 38)%nat; ((1 # 1)%Q, 39)%nat; ((1 # 1)%Q, 40)%nat; ((1 # 1)%Q, 41)%nat; ((1 # 1)%Q, 42)%nat; ((1 # 1)%Q, 43)%nat; ((1 # 1)%Q, 44)%nat; ((10 # 1)%Q, 45)%nat; ((1 # 1)%Q, 47)%nat; ((1 # 1)%Q, 48)%nat; ((1 # 1)%Q, 49)%nat; ((1 # 1)%Q, 50)%nat; ((1 # 1)%Q, 51)%nat; ((1 # 1)%Q, 52)%nat; ((1 # 1)%Q, 53)%nat; ((1 # 1)%Q, 54)%nat; ((1 # 1)%Q, 55)%nat; ((1 # 1)%Q, 56)%nat; ((1 # 1)%Q, 57)%nat; ((1 # 1)%Q, 58)%nat; ((1 # 1)%Q, 59)%nat; ((1 # 1)%Q, 60)%nat; ((1 # 1)%Q, 61)%nat; ((1 # 1)%Q, 62)%nat; ((1 # 1)%Q, 63)%nat; ((1 # 1)%Q, 64)%nat; ((1 # 1)%Q, 66)%nat; ((1 # 1)%Q, 67)%nat; ((1 # 1)%Q, 68)%nat; ((4278419646001971 # 2251799813685248)%Q, 69)%nat; ((1 # 1)%Q, 70)%nat; ((1 # 1)%Q, 71)%nat; ((1 # 1)%Q, 72)%nat; ((1 # 1)%Q, 73)%nat; ((1 # 1)%Q, 74)%nat; ((1 # 1)%Q, 75)%nat; ((1 # 1)%Q, 76)%nat; ((1 # 1)%Q, 77)%nat; ((1 # 1)%Q, 78)%nat; ((1 # 1)%Q, 79)%nat; ((1 # 1)%Q, 80)%nat; ((1 # 1)%Q, 81)%nat; ((1 # 1)%Q, 82)%nat; ((1 # 1)%Q, 83)%nat; ((1 # 1)%Q, 84)%nat; ((1 # 1)%Q, 85)%nat; ((1 # 1)%Q, 86)%nat; ((1 # 1)%Q, 87)%nat; ((1 # 1)%Q, 88)%nat; ((1 # 1)%Q, 89)%nat; ((1 # 1)%Q, 90)%nat] (* mM5 *);
   [((1 # 1)%Q, 46)%nat] (* mM6 *);
   [((1 # 1)%Q, 65)%nat] (* mM7 *);
   [((1 # 1)%Q, 45)%nat] (* mM8 *);
   [((1 # 1)%Q, 0)%nat; ((1 # 1)%Q, 1)%nat; ((1 # 1)%Q, 2)%nat; ((3602879701896397 # 2251799813685248)%Q, 3)%nat; ((1 # 1)%Q, 4)%nat; ((1 # 1)%Q, 5)%nat; ((1 # 1)%Q, 6)%nat; ((1 # 1)%Q, 7)%nat; ((1 # 1)%Q, 8)%nat; ((1 # 1)%Q, 9)%nat; ((1 # 1)%Q, 10)%nat; ((1 # 1)%Q, 11)%nat; ((1 # 1)%Q, 12)%nat; ((1 # 1)%Q, 13)%nat; ((1 # 1)%Q, 14)%nat; ((1 # 1)%Q, 15)%nat; ((1 # 1)%Q, 16)%nat; ((1 # 1)%Q, 17)%nat; ((1 # 1)%Q, 18)%nat; ((1 # 1)%Q, 19)%nat; ((1 # 1)%Q, 20)%nat; ((4165829655317709 # 1125899906842624)%Q, 21)%nat; ((1 # 1)%Q, 22)%nat; ((8669429282688205 # 1125899906842624)%Q, 23)%nat; ((1 # 1)%Q, 24)%nat; ((1 # 1)%Q, 25)%nat; ((1 # 1)%Q, 26)%nat; ((1 # 1)%Q, 27)%nat; ((1 # 1)%Q, 28)%nat; ((1 # 1)%Q, 29)%nat; ((1 # 1)%Q, 30)%nat; ((1 # 1)%Q, 31)%nat; ((1 # 1)%Q, 32)%nat; ((1 # 1)%Q, 33)%nat; ((1 # 1)%Q, 34)%nat; ((1 # 1)%Q, 35)%nat; ((1 # 1)%Q, 36)%nat; ((1 # 1)%Q, 37)%nat; ((1 # 1)%Q, 38)%nat; ((1 # 1)%Q, 39)%nat; ((1 # 1)%Q, 40)%nat; ((1 # 1)%Q, 41)%nat; ((1 # 1)%Q, 42)%nat; ((1 # 1)%Q, 43)%nat; ((1 # 1)%Q, 44)%nat; ((1 # 1)%Q, 46)%nat; ((1 # 1)%Q, 47)%nat; ((1 # 1)%Q, 48)%nat; ((1 # 1)%Q, 49)%nat; ((1 # 1)%Q, 50)%nat; ((1 # 1)%Q, 51)%nat; ((1 # 1)%Q, 52)%nat; ((1 # 1)%Q, 53)%nat; ((1 # 1)%Q, 54)%nat; ((1 # 1)%Q, 55)%nat; ((1 # 1)%Q, 56)%nat; ((1 # 1)%Q, 57)%nat; ((1 # 1)%Q, 58)%nat; ((1 # 1)%Q, 59)%nat; ((1 # 1)%Q, 60)%nat; ((1 # 1)%Q, 61)%nat; ((1 # 1)%Q, 62)%nat; ((1 # 1)%Q, 63)%nat; ((1 # 1)%Q, 64)%nat; ((5854679515581645 # 9007199254740992)%Q, 65)%nat; ((1 # 1)%Q, 66)%nat; ((5404319552844595 # 4503599627370496)%Q, 67)%nat; ((3 # 2)%Q, 68)%nat; ((3152519739159347 # 1125899906842624)%Q, 69)%nat; ((1 # 1)%Q, 70)%nat; ((1 # 1)%Q, 71)%nat; ((1 # 1)%Q, 72)%nat; ((1 # 1)%Q, 73)%nat; ((1 # 1)%Q, 74)%nat; ((1 # 1)%Q, 75)%nat; ((1 # 1)%Q, 76)%nat; ((1 # 1)%Q, 77)%nat; ((1 # 1)%Q, 78)%nat; ((1 # 1)%Q, 79)%nat; ((1 # 1)%Q, 80)%nat; ((1 # 1)%Q, 81)%nat; ((1 # 1)%Q, 82)%nat; ((1 # 1)%Q, 83)%nat; ((1 # 1)%Q, 84)%nat; ((1 # 1)%Q, 85)%nat; ((1 # 1)%Q, 86)%nat; ((1 # 1)%Q, 87)%nat; ((1 # 1)%Q, 88)%nat; ((1 # 1)%Q, 89)%nat; ((1 # 1)%Q, 90)%nat] (* mM9 *);
   [((1 # 1)%Q, 0)%nat; ((1 # 1)%Q, 1)%nat; ((1 # 1)%Q, 2)%nat; ((8106479329266893 # 2251799813685248)%Q, 3)%nat; ((1 # 1)%Q, 4)%nat; ((1 # 1)%Q, 5)%nat; ((1 # 1)%Q, 6)%nat; ((1 # 1)%Q, 7)%nat; ((1 # 1)%Q, 8)%nat; ((1 # 1)%Q, 9)%nat; ((1 # 1)%Q, 10)%nat; ((1 # 1)%Q, 11)%nat; ((1 # 1)%Q, 12)%nat; ((1 # 1)%Q, 13)%nat; ((1 # 1)%Q, 14)%nat; ((1 # 1)%Q, 15)%nat; ((1 # 1)%Q, 16)%nat; ((1 # 1)%Q, 17)%nat; ((1 # 1)%Q, 18)%nat; ((1 # 1)%Q, 19)%nat; ((1 # 1)%Q, 20)%nat; ((2 # 1)%Q, 21)%nat; ((1 # 1)%Q, 22)%nat; ((1 # 1)%Q, 23)%nat; ((1 # 1)%Q, 24)%nat; ((1 # 1)%Q, 25)%nat; ((1 # 1)%Q, 26)%nat; ((1 # 1)%Q, 27)%nat; ((1 # 1)%Q, 28)%nat; ((1 # 1)%Q, 29)%nat; ((1 # 1)%Q, 30)%nat; ((1 # 1)%Q, 31)%nat; ((1 # 1)%Q, 32)%nat; ((1 # 1)%Q, 33)%nat; ((1 # 1)%Q, 34)%nat; ((1 # 1)%Q, 35)%nat; ((1 # 1)%Q, 36)%nat; ((1 # 1)%Q, 37)%nat; ((1 # 1)%Q, 38)%nat; ((1 # 1)%Q, 39)%nat; ((1 # 1)%Q, 40)%nat; ((1 # 1)%Q, 41)%nat; ((1 # 1)%Q, 42)%nat; ((1 # 1)%Q, 43)%nat; ((1 # 1)%Q, 44)%nat; ((12 # 1)%Q, 45)%nat; ((3152519739159347 # 4503599627370496)%Q, 46)%nat; ((1 # 1)%Q, 47)%nat; ((1 # 1)%Q, 48)%nat; ((1 # 1)%Q, 49)%nat; ((1 # 1)%Q, 50)%nat; ((1 # 1)%Q, 51)%nat; ((1 # 1)%Q, 52)%nat; ((1 # 1)%Q, 53)%nat; ((1 # 1)%Q, 54)%nat; ((1 # 1)%Q, 55)%nat; ((1 # 1)%Q, 56)%nat; ((1 # 1)%Q, 57)%nat; ((1 # 1)%Q, 58)%nat; ((1 # 1)%Q, 59)%nat; ((1 # 1)%Q, 60)%nat; ((1 # 1)%Q, 61)%nat; ((1 # 1)%Q, 62)%nat; ((1 # 1)%Q, 63)%nat; ((1 # 1)%Q, 64)%nat; ((3152519739159347 # 4503599627370496)%Q, 65)%nat; ((1 # 1)%Q, 66)%nat; ((1 # 1)%Q, 67)%nat; ((1 # 1)%Q, 68)%nat; ((7 # 4)%Q, 69)%nat; ((1 # 1)%Q, 70)%nat; ((1 # 1)%Q, 71)%nat; ((1 # 1)%Q, 72)%nat; ((1 # 1)%Q, 73)%nat; ((1 # 1)%Q, 74)%nat; ((1 # 1)%Q, 75)%nat; ((1 # 1)%Q, 76)%nat; ((1 # 1)%Q, 77)%nat; ((1 # 1)%Q, 78)%nat; ((1 # 1)%Q, 79)%nat; ((1 # 1)%Q, 80)%nat; ((1 # 1)%Q, 81)%nat; ((1 # 1)%Q, 82)%nat; ((1 # 1)%Q, 83)%nat; ((1 # 1)%Q, 84)%nat; ((1 # 1)%Q, 85)%nat; ((1 # 1)%Q, 86)%nat; ((1 # 1)%Q, 87)%nat; ((1 # 1)%Q, 88)%nat; ((1 # 1)%Q, 89)%nat; ((1 # 1)%Q, 90)%nat] (* mM10 *);
   [((1 # 1)%Q, 0)%nat; ((1 # 1)%Q, 1)%nat; ((1 # 1)%Q, 2)%nat; ((2 # 1)%Q, 3)%nat; ((1 # 1)%Q, 4)%nat; ((1 # 1)%Q, 5)%nat; ((1 # 1)%Q, 6)%nat; ((1 # 1)%Q, 7)%nat; ((1 # 1)%Q, 8)%nat; ((3 # 1)%Q, 9)%nat; ((1 # 1)%Q, 10)%nat; ((1 # 1)%Q, 11)%nat; ((1 # 1)%Q, 12)%nat; ((1 # 1)%Q, 13)%nat; ((1 # 1)%Q, 14)%nat; ((1 # 1)%Q, 15)%nat; ((1 # 1)%Q, 16)%nat; ((1 # 1)%Q, 17)%nat; ((1 # 1)%Q, 18)%nat; ((1 # 1)%Q, 19)%nat; ((1 # 1)%Q, 20)%nat; ((2 # 1)%Q, 21)%nat; ((1 # 1)%Q, 22)%nat; ((1 # 1)%Q, 23)%nat; ((1 # 1)%Q, 24)%nat; ((1 # 1)%Q, 25)%nat; ((1 # 1)%Q, 26)%nat; ((1 # 1)%Q, 27)%nat; ((2 # 1)%Q, 28)%nat; ((1 # 1)%Q, 29)%nat; ((1 # 1)%Q, 30)%nat; ((1 # 1)%Q, 31)%nat; ((1 # 1)%Q, 32)%nat; ((1 # 1)%Q, 33)%nat; ((1 # 1)%Q, 34)%nat; ((1 # 1)%Q, 35)%nat; ((1 # 1)%Q, 36)%nat; ((1 # 1)%Q, 37)%nat; ((1 # 1)%Q, 38)%nat; ((1 # 1)%Q, 39)%nat; ((1 # 1)%Q, 40)%nat; ((1 # 1)%Q, 41)%nat; ((1 # 1)%Q, 42)%nat; ((1 # 1)%Q, 43)%nat; ((1 # 1)%Q, 44)%nat; ((12 # 1)%Q, 45)%nat; ((1 # 1)%Q, 46)%nat; ((1 # 1)%Q, 47)%nat; ((1 # 1)%Q, 48)%nat; ((1 # 1)%Q, 49)%nat; ((1 # 1)%Q, 50)%nat; ((1 # 1)%Q, 51)%nat; ((1 # 1)%Q, 52)%nat; ((1 # 1)%Q, 53)%nat; ((1 # 1)%Q, 54)%nat; ((1 # 1)%Q, 55)%nat; ((1 # 1)%Q, 56)%nat; ((1 # 1)%Q, 57)%nat; ((1 # 1)%Q, 58)%nat; ((1 # 1)%Q, 59)%nat; ((1 # 1)%Q, 60)%nat; ((1 # 1)%Q, 61)%nat; ((1 # 1)%Q, 62)%nat; ((1 # 1)%Q, 63)%nat; ((1 # 1)%Q, 64)%nat; ((1 # 1)%Q, 65)%nat; ((1 # 1)%Q, 66)%nat; ((1 # 1)%Q, 67)%nat; ((1 # 1)%Q, 68)%nat; ((3 # 2)%Q, 69)%nat; ((1 # 1)%Q, 70)%nat; ((1 # 1)%Q, 71)%nat; ((1 # 1)%Q, 72)%nat; ((1 # 1)%Q, 73)%nat; ((1 # 1)%Q, 74)%nat; ((1 # 1)%Q, 75)%nat; ((1 # 1)%Q, 76)%nat; ((1 # 1)%Q, 77)%nat; ((1 # 1)%Q, 78)%nat; ((1 # 1)%Q, 79)%nat; ((1 # 1)%Q, 80)%nat; ((1 # 1)%Q, 81)%nat; ((1 # 1)%Q, 82)%nat; ((1 # 1)%Q, 83)%nat; ((1 # 1)%Q, 84)%nat; ((1 # 1)%Q, 85)%nat; ((1 # 1)%Q, 86)%nat; ((1 # 1)%Q, 87)%nat; ((1 # 1)%Q, 88)%nat; ((1 # 1)%Q, 89)%nat; ((1 # 1)%Q, 90)%nat] (* mM11 *);
   [((1 # 1)%Q, 0)%nat; ((1 # 1)%Q, 1)%nat; ((1 # 1)%Q, 2)%nat; ((1 # 1)%Q, 3)%nat; ((1 # 1)%Q, 4)%nat; ((1 # 1)%Q, 5)%nat; ((1 # 1)%Q, 6)%nat; ((1 # 1)%Q, 7)%nat; ((1 # 1)%Q, 8)%nat; ((1 # 1)%Q, 9)%nat; ((1 # 1)%Q, 10)%nat; ((1 # 1)%Q, 11)%nat; ((1 # 1)%Q, 12)%nat; ((1 # 1)%Q, 13)%nat; ((1 # 1)%Q, 14)%nat; ((1 # 1)%Q, 15)%nat; ((1 # 1)%Q, 16)%nat; ((1 # 1)%Q, 17)%nat; ((1 # 1)%Q, 18)%nat; ((1 # 1)%Q, 19)%nat; ((1 # 1)%Q, 20)%nat; ((1 # 1)%Q, 21)%nat; ((1 # 1)%Q, 22)%nat; ((1 # 1)%Q, 23)%nat; ((1 # 1)%Q, 24)%nat; ((1 # 1)%Q, 25)%nat; ((1 # 1)%Q, 26)%nat; ((1 # 1)%Q, 27)%nat; ((1 # 1)%Q, 28)%nat; ((1 # 1)%Q, 29)%nat; ((1 # 1)%Q, 30)%nat; ((1 # 1)%Q, 31)%nat; ((1 # 1)%Q, 32)%nat; ((1 # 1)%Q, 33)%nat; ((1 # 1)%Q, 34)%nat; ((1 # 1)%Q, 35)%nat; ((1 # 1)%Q, 36)%nat; ((1 # 1)%Q, 37)%nat; ((1 # 1)%Q, 38)%nat; ((1 # 1)%Q, 39)%nat; ((1 # 1)%Q, 40)%nat; ((1 # 1)%Q, 41)%nat; ((1 # 1)%Q, 42)%nat; ((1 # 1)%Q, 43)%nat; ((1 # 1)%Q, 44)%nat; ((1 # 1)%Q, 45)%nat; ((1 # 1)%Q, 46)%nat; ((1 # 1)%Q, 47)%nat; ((1 # 1)%Q, 48)%nat; ((1 # 1)%Q, 49)%nat; ((1 # 1)%Q, 50)%nat; ((1 # 1)%Q, 51)%nat; ((1 # 1)%Q, 52)%nat; ((1 # 1)%Q, 53)%nat; ((1 # 1)%Q, 54)%nat; ((1 # 1)%Q, 55)%nat; ((1 # 1)%Q, 56)%nat; ((1 # 1)%Q, 57)%nat; ((1 # 1)%Q, 58)%nat; ((1 # 1)%Q, 59)%nat; ((1 # 1)%Q, 60)%nat; ((1 # 1)%Q, 61)%nat; ((1 # 1)%Q, 62)%nat; ((1 # 1)%Q, 63)%nat; ((1 # 1)%Q, 64)%nat; ((1 # 1)%Q, 65)%nat; ((1 # 1)%Q, 66)%nat; ((1 # 1)%Q, 67)%nat; ((1 # 1)%Q, 68)%nat; ((1 # 1)%Q, 69)%nat; ((1 # 1)%Q, 70)%nat; ((1 # 1)%Q, 71)%nat; ((1 # 1)%Q, 72)%nat; ((1 # 1)%Q, 73)%nat; ((1 # 1)%Q, 74)%nat; ((1 # 1)%Q, 75)%nat; ((1 # 1)%Q, 76)%nat; ((1 # 1)%Q, 77)%nat; ((1 # 1)%Q, 78)%nat; ((1 # 1)%Q, 79)%nat; ((1 # 1)%Q, 80)%nat; ((1 # 1)%Q, 81)%nat; ((1 # 1)%Q, 82)%nat; ((1 # 1)%Q, 83)%nat; ((1 # 1)%Q, 84)%nat; ((1 # 1)%Q, 85)%nat; ((1 # 1)%Q, 86)%nat; ((1 # 1)%Q, 87)%nat; ((1 # 1)%Q, 88)%nat; ((1 # 1)%Q, 89)%nat; ((1 # 1)%Q, 90)%nat] (* mM12 *);
   [((1 # 1)%Q, 0)%nat; ((1 # 1)%Q, 1)%nat; ((1 # 1)%Q, 2)%nat; ((2 # 1)%Q, 3)%nat; ((1 # 1)%Q, 4)%nat; ((1 # 1)%Q, 5)%nat; ((1 # 1)%Q, 6)%nat; ((1 # 1)%Q, 7)%nat; ((1 # 1)%Q, 8)%nat; ((3 # 1)%Q, 9)%nat; ((1 # 1)%Q, 10)%nat; ((1 # 1)%Q, 11)%nat; ((1 # 1)%Q, 12)%nat; ((1 # 1)%Q, 13)%nat; ((1 # 1)%Q, 14)%nat; ((1 # 1)%Q, 15)%nat; ((1 # 1)%Q, 16)%nat; ((1 # 1)%Q, 17)%nat; ((1 # 1)%Q, 18)%nat; ((1 # 1)%Q, 19)%nat; ((1 # 1)%Q, 20)%nat; ((2 # 1)%Q, 21)%nat; ((1 # 1)%Q, 22)%nat; ((1 # 1)%Q, 23)%nat; ((1 # 1)%Q, 24)%nat; ((1 # 1)%Q, 25)%nat; ((1 # 1)%Q, 26)%nat; ((1 # 1)%Q, 27)%nat; ((2 # 1)%Q, 28)%nat; ((1 # 1)%Q, 29)%nat; ((1 # 1)%Q, 30)%nat; ((1 # 1)%Q, 31)%nat; ((1 # 1)%Q, 32)%nat; ((1 # 1)%Q, 33)%nat; ((1 # 1)%Q, 34)%nat; ((1 # 1)%Q, 35)%nat; ((1 # 1)%Q, 36)%nat; ((1 # 1)%Q, 37)%nat; ((1 # 1)%Q, 38)%nat; ((1 # 1)%Q, 39)%nat; ((1 # 1)%Q, 40)%nat; ((1 # 1)%Q, 41)%nat; ((1 # 1)%Q, 42)%nat; ((1 # 1)%Q, 43)%nat; ((1 # 1)%Q, 44)%nat; ((6 # 1)%Q, 45)%nat; ((3152519739159347 # 4503599627370496)%Q, 46)%nat; ((1 # 1)%Q, 47)%nat; ((1 # 1)%Q, 48)%nat; ((1 # 1)%Q, 49)%nat; ((1 # 1)%Q, 50)%nat; ((1 # 1)%Q, 51)%nat; ((1 # 1)%Q, 52)%nat; ((1 # 1)%Q, 53)%nat; ((1 # 1)%Q, 54)%nat; ((1 # 1)%Q, 55)%nat; ((1 # 1)%Q, 56)%nat; ((1 # 1)%Q, 57)%nat; ((1 # 1)%Q, 58)%nat; ((1 # 1)%Q, 59)%nat; ((1 # 1)%Q, 60)%nat; ((1 # 1)%Q, 61)%nat; ((1 # 1)%Q, 62)%nat; ((1 # 1)%Q, 63)%nat; ((1 # 1)%Q, 64)%nat; ((3152519739159347 # 4503599627370496)%Q, 65)%nat; ((1 # 1)%Q, 66)%nat; ((1 # 1)%Q, 67)%nat; ((1 # 1)%Q, 68)%nat; ((3 # 2)%Q, 69)%nat; ((1 # 1)%Q, 70)%nat; ((1 # 1)%Q, 71)%nat; ((1 # 1)%Q, 72)%nat; ((1 # 1)%Q, 73)%nat; ((1 # 1)%Q, 74)%nat; ((1 # 1)%Q, 75)%nat; ((1 # 1)%Q, 76)%nat; ((1 # 1)%Q, 77)%nat; ((1 # 1)%Q, 78)%nat; ((1 # 1)%Q, 79)%nat; ((1 # 1)%Q, 80)%nat; ((1 # 1)%Q, 81)%nat; ((1 # 1)%Q, 82)%nat; ((1 # 1)%Q, 83)%nat; ((1 # 1)%Q, 84)%nat; ((1 # 1)%Q, 85)%nat; ((1 # 1)%Q, 86)%nat; ((1 # 1)%Q, 87)%nat; ((1 # 1)%Q, 88)%nat; ((1 # 1)%Q, 89)%nat; ((1 # 1)%Q, 90)%nat] (* mM13 *);
   [((1 # 1)%Q, 0)%nat; ((1 # 1)%Q, 1)%nat; ((1 # 1)%Q, 2)%nat; ((2 # 1)%Q, 3)%nat; ((1 # 1)%Q, 4)%nat; ((1 # 1)%Q, 5)%nat; ((1 # 1)%Q, 6)%nat; ((1 # 1)%Q, 7)%nat; ((1 # 1)%Q, 8)%nat; ((3 # 1)%Q, 9)%nat; ((1 # 1)%Q, 10)%nat; ((1 # 1)%Q, 11)%nat; ((1 # 1)%Q, 12)%nat; ((1 # 1)%Q, 13)%nat; ((1 # 1)%Q, 14)%nat; ((1 # 1)%Q, 15)%nat; ((1 # 1)%Q, 16)%nat; ((1 # 1)%Q, 17)%nat; ((1 # 1)%Q, 18)%nat; ((1 # 1)%Q, 19)%nat; ((1 # 1)%Q, 20)%nat; ((2 # 1)%Q, 21)%nat; ((1 # 1)%Q, 22)%nat; ((1 # 1)%Q, 23)%nat; ((1 # 1)%Q, 24)%nat; ((1 # 1)%Q, 25)%nat; ((1 # 1)%Q, 26)%nat; ((1 # 1)%Q, 27)%nat; ((2 # 1)%Q, 28)%nat; ((1 # 1)%Q, 29)%nat; ((1 # 1)%Q, 30)%nat; ((1 # 1)%Q, 31)%nat; ((1 # 1)%Q, 32)%nat; ((1 # 1)%Q, 33)%nat; ((1 # 1)%Q, 34)%nat; ((1 # 1)%Q, 35)%nat; ((1 # 1)%Q, 36)%nat; ((1 # 1)%Q, 37)%nat; ((1 # 1)%Q, 38)%nat; ((1 # 1)%Q, 39)%nat; ((1 # 1)%Q, 40)%nat; ((1 # 1)%Q, 41)%nat; ((1 # 1)%Q, 42)%nat; ((1 # 1)%Q, 43)%nat; ((1 # 1)%Q, 44)%nat; ((6 # 1)%Q, 45)%nat; ((3152519739159347 # 4503599627370496)%Q, 46)%nat; ((1 # 1)%Q, 47)%nat; ((1 # 1)%Q, 48)%nat; ((1 # 1)%Q, 49)%nat; ((1 # 1)%Q, 50)%nat; ((1 # 1)%Q, 51)%nat; ((1 # 1)%Q, 52)%nat; ((1 # 1)%Q, 53)%nat; ((1 # 1)%Q, 54)%nat; ((1 # 1)%Q, 55)%nat; ((1 # 1)%Q, 56)%nat; ((1 # 1)%Q, 57)%nat; ((1 # 1)%Q, 58)%nat; ((1 # 1)%Q, 59)%nat; ((1 # 1)%Q, 60)%nat; ((1 # 1)%Q, 61)%nat; ((1 # 1)%Q, 62)%nat; ((1 # 1)%Q, 63)%nat; ((1 # 1)%Q, 64)%nat; ((3152519739159347 # 4503599627370496)%Q, 65)%nat; ((1 # 1)%Q, 66)%nat; ((1 # 1)%Q, 67)%nat; ((1 # 1)%Q, 68)%nat; ((3 # 2)%Q, 69)%nat; ((1 # 1)%Q, 70)%nat; ((1 # 1)%Q, 71)%nat; ((1 # 1)%Q, 72)%nat; ((1 # 1)%Q, 73)%nat; ((1 # 1)%Q, 74)%nat; ((1 # 1)%Q, 75)%nat; ((1 # 1)%Q, 76)%nat; ((1 # 1)%Q, 77)%nat; ((1 # 1)%Q, 78)%nat; ((1 # 1)%Q, 79)%nat; ((1 # 1)%Q, 80)%nat; ((1 # 1)%Q, 81)%nat; ((1 # 1)%Q, 82)%nat; ((1 # 1)%Q, 83)%nat; ((1 # 1)%Q, 84)%nat; ((1 # 1)%Q, 85)%nat; ((1 # 1)%Q, 86)%nat; ((1 # 1)%Q, 87)%nat; ((1 # 1)%Q, 88)%nat; ((1 # 1)%Q, 89)%nat; ((1 # 1)%Q, 90)%nat] (* mM14 *);
   [((1 # 1)%Q, 0)%nat; ((1 # 1)%Q, 1)%nat; ((1 # 1)%Q, 2)%nat; ((2 # 1)%Q, 3)%nat; ((1 # 1)%Q, 4)%nat; ((1 # 1)%Q, 5)%nat; ((1 # 1)%Q, 6)%nat; ((1 # 1)%Q, 7)%nat; ((1 # 1)%Q, 8)%nat; ((3 # 1)%Q, 9)%nat; ((1 # 1)%Q, 10)%nat; ((1 # 1)%Q, 11)%nat; ((1 # 1)%Q, 12)%nat; ((1 # 1)%Q, 13)%nat; ((1 # 1)%Q, 14)%nat; ((1 # 1)%Q, 15)%nat; ((1 # 1)%Q, 16)%nat; ((1 # 1)%Q, 17)%nat; ((1 # 1)%Q, 18)%nat; ((1 # 1)%Q, 19)%nat; ((1 # 1)%Q, 20)%nat; ((2 # 1)%Q, 21)%nat; ((1 # 1)%Q, 22)%nat; ((1 # 1)%Q, 23)%nat; ((1 # 1)%Q, 24)%nat; ((1 # 1)%Q, 25)%nat; ((1 # 1)%Q, 26)%nat; ((1 # 1)%Q, 27)%nat; ((2 # 1)%Q, 28)%nat; ((1 # 1)%Q, 29)%nat; ((1 # 1)%Q, 30)%nat; ((1 # 1)%Q, 31)%nat; ((1 # 1)%Q, 32)%nat; ((1 # 1)%Q, 33)%nat; ((1 # 1)%Q, 34)%nat; ((1 # 1)%Q, 35)%nat; ((1 # 1)%Q, 36)%nat; ((1 # 1)%Q, 37)%nat; ((1 # 1)%Q, 38)%nat; ((1 # 1)%Q, 39)%nat; ((1 # 1)%Q, 40)%nat; ((1 # 1)%Q, 41)%nat; ((1 # 1)%Q, 42)%nat; ((1 # 1)%Q, 43)%nat; ((1 # 1)%Q, 44)%nat; ((6 # 1)%Q, 45)%nat; ((1 # 1)%Q, 46)%nat; ((1 # 1)%Q, 47)%nat; ((1 # 1)%Q, 48)%nat; ((1 # 1)%Q, 49)%nat; ((1 # 1)%Q, 50)%nat; ((1 # 1)%Q, 51)%nat; ((1 # 1)%Q, 52)%nat; ((1 # 1)%Q, 53)%nat; ((1 # 1)%Q, 54)%nat; ((1 # 1)%Q, 55)%nat; ((1 # 1)%Q, 56)%nat; ((1 # 1)%Q, 57)%nat; ((1 # 1)%Q, 58)%nat; ((1 # 1)%Q, 59)%nat; ((1 # 1)%Q, 60)%nat; ((1 # 1)%Q, 61)%nat; ((1 # 1)%Q, 62)%nat; ((1 # 1)%Q, 63)%nat; ((1 # 1)%Q, 64)%nat; ((1 # 1)%Q, 65)%nat; ((1 # 1)%Q, 66)%nat; ((1 # 1)%Q, 67)%nat; ((1 # 1)%Q, 68)%nat; ((3 # 2)%Q, 69)%nat; ((1 # 1)%Q, 70)%nat; ((1 # 1)%Q, 71)%nat; ((1 # 1)%Q, 72)%nat; ((1 # 1)%Q, 73)%nat; ((1 # 1)%Q, 74)%nat; ((1 # 1)%Q, 75)%nat; ((1 # 1)%Q, 76)%nat; ((1 # 1)%Q, 77)%nat; ((1 # 1)%Q, 78)%nat; ((1 # 1)%Q, 79)%nat; ((1 # 1)%Q, 80)%nat; ((1 # 1)%Q, 81)%nat; ((1 # 1)%Q, 82)%nat; ((1 # 1)%Q, 83)%nat; ((1 # 1)%Q, 84)%nat; ((1 # 1)%Q, 85)%nat; ((1 # 1)%Q, 86)%nat; ((1 # 1)%Q, 87)%nat; ((1 # 1)%Q, 88)%nat; ((1 # 1)%Q, 89)%nat; ((1 # 1)%Q, 90)%nat] (* mM15 *);
   [((1 # 1)%Q, 0)%nat; ((1 # 1)%Q, 1)%nat; ((1 # 1)%Q, 2)%nat; ((2 # 1)%Q, 3)%nat; ((1 # 1)%Q, 4)%nat; ((1 # 1)%Q, 5)%nat; ((1 # 1)%Q, 6)%nat; ((1 # 1)%Q, 7)%nat; ((1 # 1)%Q, 8)%nat; ((3 # 1)%Q, 9)%nat; ((1 # 1)%Q, 10)%nat; ((1 # 1)%Q, 11)%nat; ((1 # 1)%Q, 12)%nat; ((1 # 1)%Q, 13)%nat; ((1 # 1)%Q, 14)%nat; ((1 # 1)%Q, 15)%nat; ((1 # 1)%Q, 16)%nat; ((1 # 1)%Q, 17)%nat; ((1 # 1)%Q, 18)%nat; ((1 # 1)%Q, 19)%nat; ((1 # 1)%Q, 20)%nat; ((2 # 1)%Q, 21)%nat; ((1 # 1)%Q, 22)%nat; ((1 # 1)%Q, 23)%nat; ((1 # 1)%Q, 24)%nat; ((1 # 1)%Q, 25)%nat; ((1 # 1)%Q, 26)%nat; ((1 # 1)%Q, 27)%nat; ((2 # 1)%Q, 28)%nat; ((1 # 1)%Q, 29)%nat; ((1 # 1)%Q, 30)%nat; ((1 # 1)%Q, 31)%nat; ((1 # 1)%Q, 32)%nat; ((1 # 1)%Q, 33)%nat; ((1 # 1)%Q, 34)%nat; ((1 # 1)%Q, 35)%nat; ((1 # 1)%Q, 36)%nat; ((1 # 1)%Q, 37)%nat; ((1 # 1)%Q, 38)%nat; ((1 # 1)%Q, 39)%nat; ((1 # 1)%Q, 40)%nat; ((1 # 1)%Q, 41)%nat; ((1 # 1)%Q, 42)%nat; ((1 # 1)%Q, 43)%nat; ((1 # 1)%Q, 44)%nat; ((6 # 1)%Q, 45)%nat; ((1 # 1)%Q, 46)%nat; ((1 # 1)%Q, 47)%nat; ((1 # 1)%Q, 48)%nat; ((1 # 1)%Q, 49)%nat; ((1 # 1)%Q, 50)%nat; ((1 # 1)%Q, 51)%nat; ((1 # 1)%Q, 52)%nat; ((1 # 1)%Q, 53)%nat; ((1 # 1)%Q, 54)%nat; ((1 # 1)%Q, 55)%nat; ((1 # 1)%Q, 56)%nat; ((1 # 1)%Q, 57)%nat; ((1 # 1)%Q, 58)%nat; ((1 # 1)%Q, 59)%nat; ((1 # 1)%Q, 60)%nat; ((1 # 1)%Q, 61)%nat; ((1 # 1)%Q, 62)%nat; ((1 # 1)%Q, 63)%nat; ((1 # 1)%Q, 64)%nat; ((1 # 1)%Q, 65)%nat; ((1 # 1)%Q, 66)%nat; ((1 # 1)%Q, 67)%nat; ((1 # 1)%Q, 68)%nat; ((3 # 2)%Q, 69)%nat; ((1 # 1)%Q, 70)%nat; ((1 # 1)%Q, 71)%nat; ((1 # 1)%Q, 72)%nat; ((1 # 1)%Q, 73)%nat; ((1 # 1)%Q, 74)%nat; ((1 # 1)%Q, 75)%nat; ((1 # 1)%Q, 76)%nat; ((1 # 1)%Q, 77)%nat; ((1 # 1)%Q, 78)%nat; ((1 # 1)%Q, 79)%nat; ((1 # 1)%Q, 80)%nat; ((1 # 1)%Q, 81)%nat; ((1 # 1)%Q, 82)%nat; ((1 # 1)%Q, 83)%nat; ((1 # 1)%Q, 84)%nat; ((1 # 1)%Q, 85)%nat; ((1 # 1)%Q, 86)%nat; ((1 # 1)%Q, 87)%nat; ((1 # 1)%Q, 88)%nat; ((1 # 1)%Q, 89)%nat; ((1 # 1)%Q, 90)%nat] (* mM16 *);
   [((1 # 1)%Q, 0)%nat; ((1 # 1)%Q, 1)%nat; ((1 # 1)%Q, 2)%nat; ((1 # 1)%Q, 3)%nat; ((1 # 1)%Q, 4)%nat; ((1 # 1)%Q, 5)%nat; ((1 # 1)%Q, 6)%nat; ((1 # 1)%Q, 7)%nat; ((1 # 1)%Q, 8)%nat; ((1 # 1)%Q, 9)%nat; ((1 # 1)%Q, 10)%nat; ((1 # 1)%Q, 11)%nat; ((1 # 1)%Q, 12)%nat; ((1 # 1)%Q, 13)%nat; ((1 # 1)%Q, 14)%nat; ((1 # 1)%Q, 15)%nat; ((1 # 1)%Q, 16)%nat; ((1 # 1)%Q, 17)%nat; ((1 # 1)%Q, 18)%nat; ((1 # 1)%Q, 19)%nat; ((1 # 1)%Q, 20)%nat; ((1 # 1)%Q, 21)%nat; ((1 # 1)%Q, 22)%nat; ((1 # 1)%Q, 23)%nat; ((1 # 1)%Q, 24)%nat; ((1 # 1)%Q, 25)%nat; ((1 # 1)%Q, 26)%nat; ((1 # 1)%Q, 27)%nat; ((1 # 1)%Q, 28)%nat; ((1 # 1)%Q, 29)%nat; ((1 # 1)%Q, 30)%nat; ((1 # 1)%Q, 31)%nat; ((1 # 1)%Q, 32)%nat; ((1 # 1)%Q, 33)%nat; ((1 # 1)%Q, 34)%nat; ((1 # 1)%Q, 35)%nat; ((1 # 1)%Q, 36)%nat; ((1 # 1)%Q, 37)%nat; ((1 # 1)%Q, 38)%nat; ((1 # 1)%Q, 39)%nat; ((1 # 1)%Q, 40)%nat; ((1 # 1)%Q, 41)%nat; ((1 # 1)%Q, 42)%nat; ((1 # 1)%Q, 43)%nat; ((1 # 1)%Q, 44)%nat; ((1 # 1)%Q, 45)%nat; ((1 # 1)%Q, 46)%nat; ((1 # 1)%Q, 47)%nat; ((1 # 1)%Q, 48)%nat; ((1 # 1)%Q, 49)%nat; ((1 # 1)%Q, 50)%nat; ((1 # 1)%Q, 51)%nat; ((1 # 1)%Q, 52)%nat; ((1 # 1)%Q, 53)%nat; ((1 # 1)%Q, 54)%nat; ((1 # 1)%Q, 55)%nat; ((1 # 1)%Q, 56)%nat; ((1 # 1)%Q, 57)%nat; ((1 # 1)%Q, 58)%nat; ((1 # 1)%Q, 59)%nat; ((1 # 1)%Q, 60)%nat; ((1 # 1)%Q, 61)%nat; ((1 # 1)%Q, 62)%nat; ((1 # 1)%Q, 63)%nat; ((1 # 1)%Q, 64)%nat; ((1 # 1)%Q, 65)%nat; ((1 # 1)%Q, 66)%nat; ((1 # 1)%Q, 67)%nat; ((1 # 1)%Q, 68)%nat; ((1 # 1)%Q, 69)%nat; ((1 # 1)%Q, 70)%nat; ((1 # 1)%Q, 71)%nat; ((1 # 1)%Q, 72)%nat; ((1 # 1)%Q, 73)%nat; ((1 # 1)%Q, 74)%nat; ((1 # 1)%Q, 75)%nat; ((1 # 1)%Q, 76)%nat; ((1 # 1)%Q, 77)%nat; ((1 # 1)%Q, 78)%nat; ((1 # 1)%Q, 79)%nat; ((1 # 1)%Q, 80)%nat; ((1 # 1)%Q, 81)%nat; ((1 # 1)%Q, 82)%nat; ((1 # 1)%Q, 83)%nat; ((1 # 1)%Q, 84)%nat; ((1 # 1)%Q, 85)%nat; ((1 # 1)%Q, 86)%nat; ((1 # 1)%Q, 87)%nat; ((1 # 1)%Q, 88)%nat; ((1 # 1)%Q, 89)%nat; ((1 # 1)%Q, 90)%nat] (* mM17 *);
   [((1 # 1)%Q, 0)%nat; ((1 # 1)%Q, 1)%nat; ((1 # 1)%Q, 2)%nat; ((1 # 1)%Q, 3)%nat; ((1 # 1)%Q, 4)%nat; ((1 # 1)%Q, 5)%nat; ((1 # 1)%Q, 6)%nat; ((1 # 1)%Q, 7)%nat; ((1 # 1)%Q, 8)%nat; ((1 # 1)%Q, 9)%nat; ((1 # 1)%Q, 10)%nat; ((1 # 1)%Q, 11)%nat; ((1 # 1)%Q, 12)%nat; ((1 # 1)%Q, 13)%nat; ((1 # 1)%Q, 14)%nat; ((1 # 1)%Q, 15)%nat; ((1 # 1)%Q, 16)%nat; ((1 # 1)%Q, 17)%nat; ((1 # 1)%Q, 18)%nat; ((1 # 1)%Q, 19)%nat; ((1 # 1)%Q, 20)%nat; ((1 # 1)%Q, 21)%nat; ((1 # 1)%Q, 22)%nat; ((1 # 1)%Q, 23)%nat; ((1 # 1)%Q, 24)%nat; ((1 # 1)%Q, 25)%nat; ((1 # 1)%Q, 26)%nat; ((1 # 1)%Q, 27)%nat; ((1 # 1)%Q, 28)%nat; ((1 # 1)%Q, 29)%nat; ((1 # 1)%Q, 30)%nat; ((1 # 1)%Q, 31)%nat; ((1 # 1)%Q, 32)%nat; ((1 # 1)%Q, 33)%nat; ((1 # 1)%Q, 34)%nat; ((1 # 1)%Q, 35)%nat; ((1 # 1)%Q, 36)%nat; ((1 # 1)%Q, 37)%nat; ((1 # 1)%Q, 38)%nat; ((1 # 1)%Q, 39)%nat; ((1 # 1)%Q, 40)%nat; ((1 # 1)%Q, 41)%nat; ((1 # 1)%Q, 42)%nat; ((1 # 1)%Q, 43)%nat; ((1 # 1)%Q, 44)%nat; ((1 # 1)%Q, 45)%nat; ((1 # 1)%Q, 46)%nat; ((1 # 1)%Q, 47)%nat; ((1 # 1)%Q, 48)%nat; ((1 # 1)%Q, 49)%nat; ((1 # 1)%Q, 50)%nat; ((1 # 1)%Q, 51)%nat; ((1 # 1)%Q, 52)%nat; ((1 # 1)%Q, 53)%nat; ((1 # 1)%Q, 54)%nat; ((1 # 1)%Q, 55)%nat; ((1 # 1)%Q, 56)%nat; ((1 # 1)%Q, 57)%nat; ((1 # 1)%Q, 58)%nat; ((1 # 1)%Q, 59)%nat; ((1 # 1)%Q, 60)%nat; ((1 # 1)%Q, 61)%nat; ((1 # 1)%Q, 62)%nat; ((1 # 1)%Q, 63)%nat; ((1 # 1)%Q, 64)%nat; ((1 # 1)%Q, 65)%nat; ((1 # 1)%Q, 66)%nat; ((1 # 1)%Q, 67)%nat; ((1 # 1)%Q, 68)%nat; ((1 # 1)%Q, 69)%nat; ((1 # 1)%Q, 70)%nat; ((1 # 1)%Q, 71)%nat; ((1 # 1)%Q, 72)%nat; ((1 # 1)%Q, 73)%nat; ((1 # 1)%Q, 74)%nat; ((1 # 1)%Q, 75)%nat; ((1 # 1)%Q, 76)%nat; ((1 # 1)%Q, 77)%nat; ((1 # 1)%Q, 78)%nat; ((1 # 1)%Q, 79)%nat; ((1 # 1)%Q, 80)%nat; ((1 # 1)%Q, 81)%nat; ((1 # 1)%Q, 82)%nat; ((1 # 1)%Q, 83)%nat; ((1 # 1)%Q, 84)%nat; ((1 # 1)%Q, 85)%nat; ((1 # 1)%Q, 86)%nat; ((1 # 1)%Q, 87)%nat; ((1 # 1)%Q, 88)%nat; ((1 # 1)%Q, 89)%nat; ((1 # 1)%Q, 90)%nat] (* mM18 *);
   [((1 # 1)%Q, 0)%nat; ((1 # 1)%Q, 1)%nat; ((1 # 1)%Q, 2)%nat; ((1 # 1)%Q, 3)%nat; ((1 # 1)%Q, 4)%nat; ((1 # 1)%Q, 5)%nat; ((1 # 1)%Q, 6)%nat; ((1 # 1)%Q, 7)%nat; ((1 # 1)%Q, 8)%nat; ((1 # 1)%Q, 9)%nat; ((1 # 1)%Q, 10)%nat; ((1 # 1)%Q, 11)%nat; ((1 # 1)%Q, 12)%nat; ((1 # 1)%Q, 13)%nat; ((1 # 1)%Q, 14)%nat; ((1 # 1)%Q, 15)%nat; ((1 # 1)%Q, 16)%nat; ((1 # 1)%Q, 17)%nat; ((1 # 1)%Q, 18)%nat; ((1 # 1)%Q, 19)%nat; ((1 # 1)%Q, 20)%nat; ((1 # 1)%Q, 21)%nat; ((1 # 1)%Q, 22)%nat; ((1 # 1)%Q, 23)%nat; ((1 # 1)%Q, 24)%nat; ((1 # 1)%Q, 25)%nat; ((1 # 1)%Q, 26)%nat; ((1 # 1)%Q, 27)%nat; ((1 # 1)%Q, 28)%nat; ((1 # 1)%Q, 29)%nat; ((1 # 1)%Q, 30)%nat; ((1 # 1)%Q, 31)%nat; ((1 # 1)%Q, 32)%nat; ((1 # 1)%Q, 33)%nat; ((1 # 1)%Q, 34)%nat; ((1 # 1)%Q, 35)%nat; ((1 # 1)%Q, 36)%nat; ((1 # 1)%Q, 37)%nat; ((1 # 1)%Q, 38)%nat; ((1 # 1)%Q, 39)%nat; ((1 # 1)%Q, 40)%nat; ((1 # 1)%Q, 41)%nat; ((1 # 1)%Q, 42)%nat; ((1 # 1)%Q, 43)%nat; ((1 # 1)%Q, 44)%nat; ((1 # 1)%Q, 45)%nat; ((1 # 1)%Q, 46)%nat; ((1 # 1)%Q, 47)%nat; ((1 # 1)%Q, 48)%nat; ((1 # 1)%Q, 49)%nat; ((1 # 1)%Q, 50)%nat; ((1 # 1)%Q, 51)%nat; ((1 # 1)%Q, 52)%nat; ((1 # 1)%Q, 53)%nat; ((1 # 1)%Q, 54)%nat; ((1 # 1)%Q, 55)%nat; ((1 # 1)%Q, 56)%nat; ((1 # 1)%Q, 57)%nat; ((1 # 1)%Q, 58)%nat; ((1 # 1)%Q, 59)%nat; ((1 # 1)%Q, 60)%nat; ((1 # 1)%Q, 61)%nat; ((1 # 1)%Q, 62)%nat; ((1 # 1)%Q, 63)%nat; ((1 # 1)%Q, 64)%nat; ((1 # 1)%Q, 65)%nat; ((1 # 1)%Q, 66)%nat; ((1 # 1)%Q, 67)%nat; ((1 # 1)%Q, 68)%nat; ((1 # 1)%Q, 69)%nat; ((1 # 1)%Q, 70)%nat; ((1 # 1)%Q, 71)%nat; ((1 # 1)%Q, 72)%nat; ((1 # 1)%Q, 73)%nat; ((1 # 1)%Q, 74)%nat; ((1 # 1)%Q, 75)%nat; ((1 # 1)%Q, 76)%nat; ((1 # 1)%Q, 77)%nat; ((1 # 1)%Q, 78)%nat; ((1 # 1)%Q, 79)%nat; ((1 # 1)%Q, 80)%nat; ((1 # 1)%Q, 81)%nat; ((1 # 1)%Q, 82)%nat; ((1 # 1)%Q, 83)%nat; ((1 # 1)%Q, 84)%nat; ((1 # 1)%Q, 85)%nat; ((1 # 1)%Q, 86)%nat; ((1 # 1)%Q, 87)%nat; ((1 # 1)%Q, 88)%nat; ((1 # 1)%Q, 89)%nat; ((1 # 1)%Q, 90)%nat] (* mM19 *);
   [((1 # 1)%Q, 0)%nat; ((1 # 1)%Q, 1)%nat; ((1 # 1)%Q, 2)%nat; ((2 # 1)%Q, 3)%nat; ((1 # 1)%Q, 4)%nat; ((1 # 1)%Q, 5)%nat; ((1 # 1)%Q, 6)%nat; ((1 # 1)%Q, 7)%nat; ((1 # 1)%Q, 8)%nat; ((3 # 1)%Q, 9)%nat; ((1 # 1)%Q, 10)%nat; ((1 # 1)%Q, 11)%nat; ((1 # 1)%Q, 12)%nat; ((1 # 1)%Q, 13)%nat; ((1 # 1)%Q, 14)%nat; ((1 # 1)%Q, 15)%nat; ((1 # 1)%Q, 16)%nat; ((1 # 1)%Q, 17)%nat; ((1 # 1)%Q, 18)%nat; ((1 # 1)%Q, 19)%nat; ((1 # 1)%Q, 20)%nat; ((2 # 1)%Q, 21)%nat; ((1 # 1)%Q, 22)%nat; ((1 # 1)%Q, 23)%nat; ((1 # 1)%Q, 24)%nat; ((1 # 1)%Q, 25)%nat; ((1 # 1)%Q, 26)%nat; ((1 # 1)%Q, 27)%nat; ((2 # 1)%Q, 28)%nat; ((1 # 1)%Q, 29)%nat; ((1 # 1)%Q, 30)%nat; ((1 # 1)%Q, 31)%nat; ((1 # 1)%Q, 32)%nat; ((1 # 1)%Q, 33)%nat; ((1 # 1)%Q, 34)%nat; ((1 # 1)%Q, 35)%nat; ((1 # 1)%Q, 36)%nat; ((1 # 1)%Q, 37)%nat; ((1 # 1)%Q, 38)%nat; ((1 # 1)%Q, 39)%nat; ((1 # 1)%Q, 40)%nat; ((1 # 1)%Q, 41)%nat; ((1 # 1)%Q, 42)%nat; ((1 # 1)%Q, 43)%nat; ((1 # 1)%Q, 44)%nat; ((6 # 1)%Q, 45)%nat; ((3152519739159347 # 4503599627370496)%Q, 46)%nat; ((1 # 1)%Q, 47)%nat; ((1 # 1)%Q, 48)%nat; ((1 # 1)%Q, 49)%nat; ((1 # 1)%Q, 50)%nat; ((1 # 1)%Q, 51)%nat; ((1 # 1)%Q, 52)%nat; ((1 # 1)%Q, 53)%nat; ((1 # 1)%Q, 54)%nat; ((1 # 1)%Q, 55)%nat; ((1 # 1)%Q, 56)%nat; ((1 # 1)%Q, 57)%nat; ((1 # 1)%Q, 58)%nat; ((1 # 1)%Q, 59)%nat; ((1 # 1)%Q, 60)%nat; ((1 # 1)%Q, 61)%nat; ((1 # 1)%Q, 62)%nat; ((1 # 1)%Q, 63)%nat; ((1 # 1)%Q, 64)%nat; ((3152519739159347 # 4503599627370496)%Q, 65)%nat; ((1 # 1)%Q, 66)%nat; ((1 # 1)%Q, 67)%nat; ((1 # 1)%Q, 68)%nat; ((3 # 2)%Q, 69)%nat; ((1 # 1)%Q, 70)%nat; ((1 # 1)%Q, 71)%nat; ((1 # 1)%Q, 72)%nat; ((1 # 1)%Q, 73)%nat; ((1 # 1)%Q, 74)%nat; ((1 # 1)%Q, 75)%nat; ((1 # 1)%Q, 76)%nat; ((1 # 1)%Q, 77)%nat; ((1 # 1)%Q, 78)%nat; ((1 # 1)%Q, 79)%nat; ((1 # 1)%Q, 80)%nat; ((1 # 1)%Q, 81)%nat; ((1 # 1)%Q, 82)%nat; ((1 # 1)%Q, 83)%nat; ((1 # 1)%Q, 84)%nat; ((1 # 1)%Q, 85)%nat; ((1 # 1)%Q, 86)%nat; ((1 # 1)%Q, 87)%nat; ((1 # 1)%Q, 88)%nat; ((1 # 1)%Q, 89)%nat; ((1 # 1)%Q, 90)%nat] (* mM20 *);
   [((1 # 1)%Q, 0)%nat; ((1 # 1)%Q, 1)%nat; ((1 # 1)%Q, 2)%nat; ((1 # 1)%Q, 3)%nat; ((1 # 1)%Q, 4)%nat; ((1 # 1)%Q, 5)%nat; ((1 # 1)%Q, 6)%nat; ((1 # 1)%Q, 7)%nat; ((1 # 1)%Q, 8)%nat; ((1 # 1)%Q, 9)%nat; ((1 # 1)%Q, 10)%nat; ((1 # 1)%Q, 11)%nat; ((1 # 1)%Q, 12)%nat; ((1 # 1)%Q, 13)%nat; ((1 # 1)%Q, 14)%nat; ((1 # 1)%Q, 15)%nat; ((1 # 1)%Q, 16)%nat; ((1 # 1)%Q, 17)%nat; ((1 # 1)%Q, 18)%nat; ((1 # 1)%Q, 19)%nat; ((1 # 1)%Q, 20)%nat; ((1 # 1)%Q, 21)%nat; ((1 # 1)%Q, 22)%nat; ((1 # 1)%Q, 23)%nat; ((1 # 1)%Q, 24)%nat; ((1 # 1)%Q, 25)%nat; ((1 # 1)%Q, 26)%nat; ((1 # 1)%Q, 27)%nat; ((1 # 1)%Q, 28)%nat; ((1 # 1)%Q, 29)%nat; ((1 # 1)%Q, 30)%nat; ((1 # 1)%Q, 31)%nat; ((1 # 1)%Q, 32)%nat; ((1 # 1)%Q, 33)%nat; ((1 # 1)%Q, 34)%nat; ((1 # 1)%Q, 35)%nat; ((1 # 1)%Q, 36)%nat; ((1 # 1)%Q, 37)%nat; ((1 # 1)%Q, 38)%nat; ((1 # 1)%Q, 39)%nat; ((1 # 1)%Q, 40)%nat; ((1 # 1)%Q, 41)%nat; ((1 # 1)%Q, 42)%nat; ((1 # 1)%Q, 43)%nat; ((1 # 1)%Q, 44)%nat; ((1 # 1)%Q, 45)%nat; ((1 # 1)%Q, 46)%nat; ((1 # 1)%Q, 47)%nat; ((1 # 1)%Q, 48)%nat; ((1 # 1)%Q, 49)%nat; ((1 # 1)%Q, 50)%nat; ((1 # 1)%Q, 51)%nat; ((1 # 1)%Q, 52)%nat; ((1 # 1)%Q, 53)%nat; ((1 # 1)%Q, 54)%nat; ((1 # 1)%Q, 55)%nat; ((1 # 1)%Q, 56)%nat; ((1 # 1)%Q, 57)%nat; ((1 # 1)%Q, 58)%nat; ((1 # 1)%Q, 59)%nat; ((1 # 1)%Q, 60)%nat; ((1 # 1)%Q, 61)%nat; ((1 # 1)%Q, 62)%nat; ((1 # 1)%Q, 63)%nat; ((1 # 1)%Q, 64)%nat; ((1 # 1)%Q, 65)%nat; ((1 # 1)%Q, 66)%nat; ((1 # 1)%Q, 67)%nat; ((1 # 1)%Q, 68)%nat; ((1 # 1)%Q, 69)%nat; ((1 # 1)%Q, 70)%nat; ((1 # 1)%Q, 71)%nat; ((1 # 1)%Q, 72)%nat; ((1 # 1)%Q, 73)%nat; ((1 # 1)%Q, 74)%nat; ((1 # 1)%Q, 75)%nat; ((1 # 1)%Q, 76)%nat; ((1 # 1)%Q, 77)%nat; ((1 # 1)%Q, 78)%nat; ((1 # 1)%Q, 79)%nat; ((1 # 1)%Q, 80)%nat; ((1 # 1)%Q, 81)%nat; ((1 # 1)%Q, 82)%nat; ((1 # 1)%Q, 83)%nat; ((1 # 1)%Q, 84)%nat; ((1 # 1)%Q, 85)%nat; ((1 # 1)%Q, 86)%nat; ((1 # 1)%Q, 87)%nat; ((1 # 1)%Q, 88)%nat; ((1 # 1)%Q, 89)%nat; ((1 # 1)%Q, 90)%nat] (* mM21 *);
   [((1 # 1)%Q, 0)%nat; ((1 # 1)%Q, 1)%nat; ((1 # 1)%Q, 2)%nat; ((2 # 1)%Q, 3)%nat; ((1 # 1)%Q, 4)%nat; ((1 # 1)%Q, 5)%nat; ((1 # 1)%Q, 6)%nat; ((1 # 1)%Q, 7)%nat; ((1 # 1)%Q, 8)%nat; ((3 # 1)%Q, 9)%nat; ((1 # 1)%Q, 10)%nat; ((1 # 1)%Q, 11)%nat; ((1 # 1)%Q, 12)%nat; ((1 # 1)%Q, 13)%nat; ((1 # 1)%Q, 14)%nat; ((1 # 1)%Q, 15)%nat; ((1 # 1)%Q, 16)%nat; ((1 # 1)%Q, 17)%nat; ((1 # 1)%Q, 18)%nat; ((1 # 1)%Q, 19)%nat; ((1 # 1)%Q, 20)%nat; ((2 # 1)%Q, 21)%nat; ((1 # 1)%Q, 22)%nat; ((1 # 1)%Q, 23)%nat; ((1 # 1)%Q, 24)%nat; ((1 # 1)%Q, 25)%nat; ((1 # 1)%Q, 26)%nat; ((1 # 1)%Q, 27)%nat; ((2 # 1)%Q, 28)%nat; ((1 # 1)%Q, 29)%nat; ((1 # 1)%Q, 30)%nat; ((1 # 1)%Q, 31)%nat; ((1 # 1)%Q, 32)%nat; ((1 # 1)%Q, 33)%nat; ((1 # 1)%Q, 34)%nat; ((1 # 1)%Q, 35)%nat; ((1 # 1)%Q, 36)%nat; ((1 # 1)%Q, 37)%nat; ((1 # 1)%Q, 38)%nat; ((1 # 1)%Q, 39)%nat; ((1 # 1)%Q, 40)%nat; ((1 # 1)%Q, 41)%nat; ((1 # 1)%Q, 42)%nat; ((1 # 1)%Q, 43)%nat; ((1 # 1)%Q, 44)%nat; ((6 # 1)%Q, 45)%nat; ((3152519739159347 # 4503599627370496)%Q, 46)%nat; ((1 # 1)%Q, 47)%nat; ((1 # 1)%Q, 48)%nat; ((1 # 1)%Q, 49)%nat; ((1 # 1)%Q, 50)%nat; ((1 # 1)%Q, 51)%nat; ((1 # 1)%Q, 52)%nat; ((1 # 1)%Q, 53)%nat; ((1 # 1)%Q, 54)%nat; ((1 # 1)%Q, 55)%nat; ((1 # 1)%Q, 56)%nat; ((1 # 1)%Q, 57)%nat; ((1 # 1)%Q, 58)%nat; ((1 # 1)%Q, 59)%nat; ((1 # 1)%Q, 60)%nat; ((1 # 1)%Q, 61)%nat; ((1 # 1)%Q, 62)%nat; ((1 # 1)%Q, 63)%nat; ((1 # 1)%Q, 64)%nat; ((3152519739159347 # 4503599627370496)%Q, 65)%nat; ((1 # 1)%Q, 66)%nat; ((1 # 1)%Q, 67)%nat; ((1 # 1)%Q, 68)%nat; ((3 # 2)%Q, 69)%nat; ((1 # 1)%Q, 70)%nat; ((1 # 1)%Q, 71)%nat; ((1 # 1)%Q, 72)%nat; ((1 # 1)%Q, 73)%nat; ((1 # 1)%Q, 74)%nat; ((1 # 1)%Q, 75)%nat; ((1 # 1)%Q, 76)%nat; ((1 # 1)%Q, 77)%nat; ((1 # 1)%Q, 78)%nat; ((1 # 1)%Q, 79)%nat; ((1 # 1)%Q, 80)%nat; ((1 # 1)%Q, 81)%nat; ((1 # 1)%Q, 82)%nat; ((1 # 1)%Q, 83)%nat; ((1 # 1)%Q, 84)%nat; ((1 # 1)%Q, 85)%nat; ((1 # 1)%Q, 86)%nat; ((1 # 1)%Q, 87)%nat; ((1 # 1)%Q, 88)%nat; ((1 # 1)%Q, 89)%nat; ((1 # 1)%Q, 90)%nat] (* mM22 *);
   [((1 # 1)%Q, 0)%nat; ((1 # 1)%Q, 1)%nat; ((1 # 1)%Q, 2)%nat; ((3 # 1)%Q, 3)%nat; ((1 # 1)%Q, 4)%nat; ((1 # 1)%Q, 5)%nat; ((1 # 1)%Q, 6)%nat; ((1 # 1)%Q, 7)%nat; ((1 # 1)%Q, 8)%nat; ((1 # 1)%Q, 9)%nat; ((1 # 1)%Q, 10)%nat; ((1 # 1)%Q, 11)%nat; ((1 # 1)%Q, 12)%nat; ((1 # 1)%Q, 13)%nat; ((1 # 1)%Q, 14)%nat; ((1 # 1)%Q, 15)%nat; ((1 # 1)%Q, 16)%nat; ((1 # 1)%Q, 17)%nat; ((1 # 1)%Q, 18)%nat; ((1 # 1)%Q, 19)%nat; ((1 # 1)%Q, 20)%nat; ((1 # 1)%Q, 21)%nat; ((1 # 1)%Q, 22)%nat; ((1 # 1)%Q, 23)%nat; ((1 # 1)%Q, 24)%nat; ((1 # 1)%Q, 25)%nat; ((1 # 1)%Q, 26)%nat; ((1 # 1)%Q, 27)%nat; ((1 # 1)%Q, 28)%nat; ((1 # 1)%Q, 29)%nat; ((1 # 1)%Q, 30)%nat; ((1 # 1)%Q, 31)%nat; ((1 # 1)%Q, 32)%nat; ((1 # 1)%Q, 33)%nat; ((1 # 1)%Q, 34)%nat; ((1 # 1)%Q, 35)%nat; ((1 # 1)%Q, 36)%nat; ((1 # 1)%Q, 37)%nat; ((1 # 1)%Q, 38)%nat; ((1 # 1)%Q, 39)%nat; ((1 # 1)%Q, 40)%nat; ((1 # 1)%Q, 41)%nat; ((1 # 1)%Q, 42)%nat; ((1 # 1)%Q, 43)%nat; ((1 # 1)%Q, 44)%nat; ((5 # 1)%Q, 45)%nat; ((1 # 1)%Q, 46)%nat; ((1 # 1)%Q, 47)%nat; ((1 # 1)%Q, 48)%nat; ((1 # 1)%Q, 49)%nat; ((1 # 1)%Q, 50)%nat; ((1 # 1)%Q, 51)%nat; ((1 # 1)%Q, 52)%nat; ((1 # 1)%Q, 53)%nat; ((1 # 1)%Q, 54)%nat; ((1 # 1)%Q, 55)%nat; ((1 # 1)%Q, 56)%nat; ((1 # 1)%Q, 57)%nat; ((1 # 1)%Q, 58)%nat; ((1 # 1)%Q, 59)%nat; ((1 # 1)%Q, 60)%nat; ((1 # 1)%Q, 61)%nat; ((1 # 1)%Q, 62)%nat; ((1 # 1)%Q, 63)%nat; ((1 # 1)%Q, 64)%nat; ((1 # 1)%Q, 65)%nat; ((1 # 1)%Q, 66)%nat; ((1 # 1)%Q, 67)%nat; ((1 # 1)%Q, 68)%nat; ((2 # 1)%Q, 69)%nat; ((1 # 1)%Q, 70)%nat; ((1 # 1)%Q, 71)%nat; ((1 # 1)%Q, 72)%nat; ((1 # 1)%Q, 73)%nat; ((1 # 1)%Q, 74)%nat; ((1 # 1)%Q, 75)%nat; ((1 # 1)%Q, 76)%nat; ((1 # 1)%Q, 77)%nat; ((1 # 1)%Q, 78)%nat; ((1 # 1)%Q, 79)%nat; ((1 # 1)%Q, 80)%nat; ((1 # 1)%Q, 81)%nat; ((1 # 1)%Q, 82)%nat; ((1 # 1)%Q, 83)%nat; ((1 # 1)%Q, 84)%nat; ((1 # 1)%Q, 85)%nat; ((1 # 1)%Q, 86)%nat; ((1 # 1)%Q, 87)%nat; ((1 # 1)%Q, 88)%nat; ((1 # 1)%Q, 89)%nat; ((1 # 1)%Q, 90)%nat] (* mM23 *);
   [((1 # 1)%Q, 0)%nat; ((1 # 1)%Q, 1)%nat; ((1 # 1)%Q, 2)%nat; ((2 # 1)%Q, 3)%nat; ((1 # 1)%Q, 4)%nat; ((1 # 1)%Q, 5)%nat; ((1 # 1)%Q, 6)%nat; ((1 # 1)%Q, 7)%nat; ((1 # 1)%Q, 8)%nat; ((3 # 1)%Q, 9)%nat; ((1 # 1)%Q, 10)%nat; ((1 # 1)%Q, 11)%nat; ((1 # 1)%Q, 12)%nat; ((1 # 1)%Q, 13)%nat; ((1 # 1)%Q, 14)%nat; ((1 # 1)%Q, 15)%nat; ((1 # 1)%Q, 16)%nat; ((1 # 1)%Q, 17)%nat; ((1 # 1)%Q, 18)%nat; ((1 # 1)%Q, 19)%nat; ((1 # 1)%Q, 20)%nat; ((2 # 1)%Q, 21)%nat; ((1 # 1)%Q, 22)%nat; ((1 # 1)%Q, 23)%nat; ((1 # 1)%Q, 24)%nat; ((1 # 1)%Q, 25)%nat; ((1 # 1)%Q, 26)%nat; ((1 # 1)%Q, 27)%nat; ((2 # 1)%Q, 28)%nat; ((1 # 1)%Q, 29)%nat; ((1 # 1)%Q, 30)%nat; ((1 # 1)%Q, 31)%nat; ((1 # 1)%Q, 32)%nat; ((1 # 1)%Q, 33)%nat; ((1 # 1)%Q, 34)%nat; ((1 # 1)%Q, 35)%nat; ((1 # 1)%Q, 36)%nat; ((1 # 1)%Q, 37)%nat; ((1 # 1)%Q, 38)%nat; ((1 # 1)%Q, 39)%nat; ((1 # 1)%Q, 40)%nat; ((1 # 1)%Q, 41)%nat; ((1 # 1)%Q, 42)%nat; ((1 # 1)%Q, 43)%nat; ((1 # 1)%Q, 44)%nat; ((6 # 1)%Q, 45)%nat; ((3152519739159347 # 4503599627370496)%Q, 46)%nat; ((1 # 1)%Q, 47)%nat; ((1 # 1)%Q, 48)%nat; ((1 # 1)%Q, 49)%nat; ((1 # 1)%Q, 50)%nat; ((1 # 1)%Q, 51)%nat; ((1 # 1)%Q, 52)%nat; ((1 # 1)%Q, 53)%nat; ((1 # 1)%Q, 54)%nat; ((1 # 1)%Q, 55)%nat; ((1 # 1)%Q, 56)%nat; ((1 # 1)%Q, 57)%nat; ((1 # 1)%Q, 58)%nat; ((1 # 1)%Q, 59)%nat; ((1 # 1)%Q, 60)%nat; ((1 # 1)%Q, 61)%nat; ((1 # 1)%Q, 62)%nat; ((1 # 1)%Q, 63)%nat; ((1 # 1)%Q, 64)%nat; ((3152519739159347 # 4503599627370496)%Q, 65)%nat; ((1 # 1)%Q, 66)%nat; ((1 # 1)%Q, 67)%nat; ((1 # 1)%Q, 68)%nat; ((3 # 2)%Q, 69)%nat; ((1 # 1)%Q, 70)%nat; ((1 # 1)%Q, 71)%nat; ((1 # 1)%Q, 72)%nat; ((1 # 1)%Q, 73)%nat; ((1 # 1)%Q, 74)%nat; ((1 # 1)%Q, 75)%nat; ((1 # 1)%Q, 76)%nat; ((1 # 1)%Q, 77)%nat; ((1 # 1)%Q, 78)%nat; ((1 # 1)%Q, 79)%nat; ((1 # 1)%Q, 80)%nat; ((1 # 1)%Q, 81)%nat; ((1 # 1)%Q, 82)%nat; ((1 # 1)%Q, 83)%nat; ((1 # 1)%Q, 84)%nat; ((1 # 1)%Q, 85)%nat; ((1 # 1)%Q, 86)%nat; ((1 # 1)%Q, 87)%nat; ((1 # 1)%Q, 88)%nat; ((1 # 1)%Q, 89)%nat; ((1 # 1)%Q, 90)%nat] (* mM24 *);
   [((1 # 1)%Q, 0)%nat; ((1 # 1)%Q, 1)%nat; ((1 # 1)%Q, 2)%nat; ((2 # 1)%Q, 3)%nat; ((1 # 1)%Q, 4)%nat; ((1 # 1)%Q, 5)%nat; ((1 # 1)%Q, 6)%nat; ((1 # 1)%Q, 7)%nat; ((1 # 1)%Q, 8)%nat; ((3 # 1)%Q, 9)%nat; ((1 # 1)%Q, 10)%nat; ((1 # 1)%Q, 11)%nat; ((1 # 1)%Q, 12)%nat; ((1 # 1)%Q, 13)%nat; ((1 # 1)%Q, 14)%nat; ((1 # 1)%Q, 15)%nat; ((1 # 1)%Q, 16)%nat; ((1 # 1)%Q, 17)%nat; ((1 # 1)%Q, 18)%nat; ((1 # 1)%Q, 19)%nat; ((1 # 1)%Q, 20)%nat; ((2 # 1)%Q, 21)%nat; ((1 # 1)%Q, 22)%nat; ((1 # 1)%Q, 23)%nat; ((1 # 1)%Q, 24)%nat; ((1 # 1)%Q, 25)%nat; ((1 # 1)%Q, 26)%nat; ((1 # 1)%Q, 27)%nat; ((2 # 1)%Q, 28)%nat; ((1 # 1)%Q, 29)%nat; ((1 # 1)%Q, 30)%nat; ((1 # 1)%Q, 31)%nat; ((1 # 1)%Q, 32)%nat; ((1 # 1)%Q, 33)%nat; ((1 # 1)%Q, 34)%nat; ((1 # 1)%Q, 35)%nat; ((1 # 1)%Q, 36)%nat; ((1 # 1)%Q, 37)%nat; ((1 # 1)%Q, 38)%nat; ((1 # 1)%Q, 39)%nat; ((1 # 1)%Q, 40)%nat; ((1 # 1)%Q, 41)%nat; ((1 # 1)%Q, 42)%nat; ((1 # 1)%Q, 43)%nat; ((1 # 1)%Q, 44)%nat; ((6 # 1)%Q, 45)%nat; ((3152519739159347 # 4503599627370496)%Q, 46)%nat; ((1 # 1)%Q, 47)%nat; ((1 # 1)%Q, 48)%nat; ((1 # 1)%Q, 49)%nat; ((1 # 1)%Q, 50)%nat; ((1 # 1)%Q, 51)%nat; ((1 # 1)%Q, 52)%nat; ((1 # 1)%Q, 53)%nat; ((1 # 1)%Q, 54)%nat; ((1 # 1)%Q, 55)%nat; ((1 # 1)%Q, 56)%nat; ((1 # 1)%Q, 57)%nat; ((1 # 1)%Q, 58)%nat; ((1 # 1)%Q, 59)%nat; ((1 # 1)%Q, 60)%nat; ((1 # 1)%Q, 61)%nat; ((1 # 1)%Q, 62)%nat; ((1 # 1)%Q, 63)%nat; ((1 # 1)%Q, 64)%nat; ((1 # 1)%Q, 65)%nat; ((1 # 1)%Q, 66)%nat; ((1 # 1)%Q, 67)%nat; ((1 # 1)%Q, 68)%nat; ((3 # 2)%Q, 69)%nat; ((1 # 1)%Q, 70)%nat; ((1 # 1)%Q, 71)%nat; ((1 # 1)%Q, 72)%nat; ((1 # 1)%Q, 73)%nat; ((1 # 1)%Q, 74)%nat; ((1 # 1)%Q, 75)%nat; ((1 # 1)%Q, 76)%nat; ((1 # 1)%Q, 77)%nat; ((1 # 1)%Q, 78)%nat; ((1 # 1)%Q, 79)%nat; ((1 # 1)%Q, 80)%nat; ((1 # 1)%Q, 81)%nat; ((1 # 1)%Q, 82)%nat; ((1 # 1)%Q, 83)%nat; ((1 # 1)%Q, 84)%nat; ((1 # 1)%Q, 85)%nat; ((1 # 1)%Q, 86)%nat; ((1 # 1)%Q, 87)%nat; ((1 # 1)%Q, 88)%nat; ((1 # 1)%Q, 89)%nat; ((1 # 1)%Q, 90)%nat] (* mM25 *);
   [((1 # 1)%Q, 0)%nat; ((1 # 1)%Q, 1)%nat; ((1 # 1)%Q, 2)%nat; ((1 # 1)%Q, 3)%nat; ((1 # 1)%Q, 4)%nat; ((1 # 1)%Q, 5)%nat; ((1 # 1)%Q, 6)%nat; ((1 # 1)%Q, 7)%nat; ((1 # 1)%Q, 8)%nat; ((1 # 1)%Q, 9)%nat; ((1 # 1)%Q, 10)%nat; ((1 # 1)%Q, 11)%nat; ((1 # 1)%Q, 12)%nat; ((1 # 1)%Q, 13)%nat; ((1 # 1)%Q, 14)%nat; ((1 # 1)%Q, 15)%nat; ((1 # 1)%Q, 16)%nat; ((1 # 1)%Q, 17)%nat; ((1 # 1)%Q, 18)%nat; ((1 # 1)%Q, 19)%nat; ((1 # 1)%Q, 20)%nat; ((1 # 1)%Q, 21)%nat; ((1 # 1)%Q, 22)%nat; ((1 # 1)%Q, 23)%nat; ((1 # 1)%Q, 24)%nat; ((1 # 1)%Q, 25)%nat; ((1 # 1)%Q, 26)%nat; ((1 # 1)%Q, 27)%nat; ((1 # 1)%Q, 28)%nat; ((1 # 1)%Q, 29)%nat; ((1 # 1)%Q, 30)%nat; ((1 # 1)%Q, 31)%nat; ((1 # 1)%Q, 32)%nat; ((1 # 1)%Q, 33)%nat; ((1 # 1)%Q, 34)%nat; ((1 # 1)%Q, 35)%nat; ((1 # 1)%Q, 36)%nat; ((1 # 1)%Q, 37)%nat; ((1 # 1)%Q, 38)%nat; ((1 # 1)%Q, 39)%nat; ((1 # 1)%Q, 40)%nat; ((1 # 1)%Q, 41)%nat; ((1 # 1)%Q, 42)%nat; ((1 # 1)%Q, 43)%nat; ((1 # 1)%Q, 44)%nat; ((1 # 1)%Q, 45)%nat; ((1 # 1)%Q, 46)%nat; ((1 # 1)%Q, 47)%nat; ((1 # 1)%Q, 48)%nat; ((1 # 1)%Q, 49)%nat; ((1 # 1)%Q, 50)%nat; ((1 # 1)%Q, 51)%nat; ((1 # 1)%Q, 52)%nat; ((1 # 1)%Q, 53)%nat; ((1 # 1)%Q, 54)%nat; ((1 # 1)%Q, 55)%nat; ((1 # 1)%Q, 56)%nat; ((1 # 1)%Q, 57)%nat; ((1 # 1)%Q, 58)%nat; ((1 # 1)%Q, 59)%nat; ((1 # 1)%Q, 60)%nat; ((1 # 1)%Q, 61)%nat; ((1 # 1)%Q, 62)%nat; ((1 # 1)%Q, 63)%nat; ((1 # 1)%Q, 64)%nat; ((1 # 1)%Q, 65)%nat; ((1 # 1)%Q, 66)%nat; ((1 # 1)%Q, 67)%nat; ((1 # 1)%Q, 68)%nat; ((1 # 1)%Q, 69)%nat; ((1 # 1)%Q, 70)%nat; ((1 # 1)%Q, 71)%nat; ((1 # 1)%Q, 72)%nat; ((1 # 1)%Q, 73)%nat; ((1 # 1)%Q, 74)%nat; ((1 # 1)%Q, 75)%nat; ((1 # 1)%Q, 76)%nat; ((1 # 1)%Q, 77)%nat; ((1 # 1)%Q, 78)%nat; ((1 # 1)%Q, 79)%nat; ((1 # 1)%Q, 80)%nat; ((1 # 1)%Q, 81)%nat; ((1 # 1)%Q, 82)%nat; ((1 # 1)%Q, 83)%nat; ((1 # 1)%Q, 84)%nat; ((1 # 1)%Q, 85)%nat; ((1 # 1)%Q, 86)%nat; ((1 # 1)%Q, 87)%nat; ((1 # 1)%Q, 88)%nat; ((1 # 1)%Q, 89)%nat; ((1 # 1)%Q, 90)%nat] (* mM26 *);
   [((1 # 1)%Q, 0)%nat; ((1 # 1)%Q, 1)%nat; ((1 # 1)%Q, 2)%nat; ((1 # 1)%Q, 3)%nat; ((1 # 1)%Q, 4)%nat; ((1 # 1)%Q, 5)%nat; ((1 # 1)%Q, 6)%nat; ((1 # 1)%Q, 7)%nat; ((1 # 1)%Q, 8)%nat; ((1 # 1)%Q, 9)%nat; ((1 # 1)%Q, 10)%nat; ((1 # 1)%Q, 11)%nat; ((1 # 1)%Q, 12)%nat; ((1 # 1)%Q, 13)%nat; ((1 # 1)%Q, 14)%nat; ((1 # 1)%Q, 15)%nat; ((1 # 1)%Q, 16)%nat; ((1 # 1)%Q, 17)%nat; ((1 # 1)%Q, 18)%nat; ((1 # 1)%Q, 19)%nat; ((1 # 1)%Q, 20)%nat; ((1 # 1)%Q, 21)%nat; ((1 # 1)%Q, 22)%nat; ((1 # 1)%Q, 23)%nat; ((1 # 1)%Q, 24)%nat; ((1 # 1)%Q, 25)%nat; ((1 # 1)%Q, 26)%nat; ((1 # 1)%Q, 27)%nat; ((1 # 1)%Q, 28)%nat; ((1 # 1)%Q, 29)%nat; ((1 # 1)%Q, 30)%nat; ((1 # 1)%Q, 31)%nat; ((1 # 1)%Q, 32)%nat; ((1 # 1)%Q, 33)%nat; ((1 # 1)%Q, 34)%nat; ((1 # 1)%Q, 35)%nat; ((1 # 1)%Q, 36)%nat; ((1 # 1)%Q, 37)%nat; ((1 # 1)%Q, 38)%nat; ((1 # 1)%Q, 39)%nat; ((1 # 1)%Q, 40)%nat; ((1 # 1)%Q, 41)%nat; ((1 # 1)%Q, 42)%nat; ((1 # 1)%Q, 43)%nat; ((1 # 1)%Q, 44)%nat; ((1 # 1)%Q, 45)%nat; ((1 # 1)%Q, 46)%nat; ((1 # 1)%Q, 47)%nat; ((1 # 1)%Q, 48)%nat; ((1 # 1)%Q, 49)%nat; ((1 # 1)%Q, 50)%nat; ((1 # 1)%Q, 51)%nat; ((1 # 1)%Q, 52)%nat; ((1 # 1)%Q, 53)%nat; ((1 # 1)%Q, 54)%nat; ((1 # 1)%Q, 55)%nat; ((1 # 1)%Q, 56)%nat; ((1 # 1)%Q, 57)%nat; ((1 # 1)%Q, 58)%nat; ((1 # 1)%Q, 59)%nat; ((1 # 1)%Q, 60)%nat; ((1 # 1)%Q, 61)%nat; ((1 # 1)%Q, 62)%nat; ((1 # 1)%Q, 63)%nat; ((1 # 1)%Q, 64)%nat; ((1 # 1)%Q, 65)%nat; ((1 # 1)%Q, 66)%nat; ((1 # 1)%Q, 67)%nat; ((1 # 1)%Q, 68)%nat; ((1 # 1)%Q, 69)%nat; ((1 # 1)%Q, 70)%nat; ((1 # 1)%Q, 71)%nat; ((1 # 1)%Q, 72)%nat; ((1 # 1)%Q, 73)%nat; ((1 # 1)%Q, 74)%nat; ((1 # 1)%Q, 75)%nat; ((1 # 1)%Q, 76)%nat; ((1 # 1)%Q, 77)%nat; ((1 # 1)%Q, 78)%nat; ((1 # 1)%Q, 79)%nat; ((1 # 1)%Q, 80)%nat; ((1 # 1)%Q, 81)%nat; ((1 # 1)%Q, 82)%nat; ((1 # 1)%Q, 83)%nat; ((1 # 1)%Q, 84)%nat; ((1 # 1)%Q, 85)%nat; ((1 # 1)%Q, 86)%nat; ((1 # 1)%Q, 87)%nat; ((1 # 1)%Q, 88)%nat; ((1 # 1)%Q, 89)%nat; ((1 # 1)%Q, 90)%nat] (* mM27 *);
   [((1 # 1)%Q, 0)%nat; ((1 # 1)%Q, 1)%nat; ((1 # 1)%Q, 2)%nat; ((1 # 1)%Q, 3)%nat; ((1 # 1)%Q, 4)%nat; ((1 # 1)%Q, 5)%nat; ((1 # 1)%Q, 6)%nat; ((1 # 1)%Q, 7)%nat; ((1 # 1)%Q, 8)%nat; ((1 # 1)%Q, 9)%nat; ((1 # 1)%Q, 10)%nat; ((1 # 1)%Q, 11)%nat; ((1 # 1)%Q, 12)%nat; ((1 # 1)%Q, 13)%nat; ((1 # 1)%Q, 14)%nat; ((1 # 1)%Q, 15)%nat; ((1 # 1)%Q, 16)%nat; ((1 # 1)%Q, 17)%nat; ((1 # 1)%Q, 18)%nat; ((1 # 1)%Q, 19)%nat; ((1 # 1)%Q, 20)%nat; ((1 # 1)%Q, 21)%nat; ((1 # 1)%Q, 22)%nat; ((1 # 1)%Q, 23)%nat; ((1 # 1)%Q, 24)%nat; ((1 # 1)%Q, 25)%nat; ((1 # 1)%Q, 26)%nat; ((1 # 1)%Q, 27)%nat; ((1 # 1)%Q, 28)%nat; ((1 # 1)%Q, 29)%nat; ((1 # 1)%Q, 30)%nat; ((1 # 1)%Q, 31)%nat; ((1 # 1)%Q, 32)%nat; ((1 # 1)%Q, 33)%nat; ((1 # 1)%Q, 34)%nat; ((1 # 1)%Q, 35)%nat; ((1 # 1)%Q, 36)%nat; ((1 # 1)%Q, 37)%nat; ((1 # 1)%Q, 38)%nat; ((1 # 1)%Q, 39)%nat; ((1 # 1)%Q, 40)%nat; ((1 # 1)%Q, 41)%nat; ((1 # 1)%Q, 42)%nat; ((1 # 1)%Q, 43)%nat; ((1 # 1)%Q, 44)%nat; ((1 # 1)%Q, 45)%nat; ((1 # 1)%Q, 46)%nat; ((1 # 1)%Q, 47)%nat; ((1 # 1)%Q, 48)%nat; ((1 # 1)%Q, 49)%nat; ((1 # 1)%Q, 50)%nat; ((1 # 1)%Q, 51)%nat; ((1 # 1)%Q, 52)%nat; ((1 # 1)%Q, 53)%nat; ((1 # 1)%Q, 54)%nat; ((1 # 1)%Q, 55)%nat; ((1 # 1)%Q, 56)%nat; ((1 # 1)%Q, 57)%nat; ((1 # 1)%Q, 58)%nat; ((1 # 1)%Q, 59)%nat; ((1 # 1)%Q, 60)%nat; ((1 # 1)%Q, 61)%nat; ((1 # 1)%Q, 62)%nat; ((1 # 1)%Q, 63)%nat; ((1 # 1)%Q, 64)%nat; ((1 # 1)%Q, 65)%nat; ((1 # 1)%Q, 66)%nat; ((1 # 1)%Q, 67)%nat; ((1 # 1)%Q, 68)%nat; ((1 # 1)%Q, 69)%nat; ((1 # 1)%Q, 70)%nat; ((1 # 1)%Q, 71)%nat; ((1 # 1)%Q, 72)%nat; ((1 # 1)%Q, 73)%nat; ((1 # 1)%Q, 74)%nat; ((1 # 1)%Q, 75)%nat; ((1 # 1)%Q, 76)%nat; ((1 # 1)%Q, 77)%nat; ((1 # 1)%Q, 78)%nat; ((1 # 1)%Q, 79)%nat; ((1 # 1)%Q, 80)%nat; ((1 # 1)%Q, 81)%nat; ((1 # 1)%Q, 82)%nat; ((1 # 1)%Q, 83)%nat; ((1 # 1)%Q, 84)%nat; ((1 # 1)%Q, 85)%nat; ((1 # 1)%Q, 86)%nat; ((1 # 1)%Q, 87)%nat; ((1 # 1)%Q, 88)%nat; ((1 # 1)%Q, 89)%nat; ((1 # 1)%Q, 90)%nat] (* mM28 *);
   [((1 # 1)%Q, 0)%nat; ((1 # 1)%Q, 1)%nat; ((1 # 1)%Q, 2)%nat; ((1 # 1)%Q, 3)%nat; ((1 # 1)%Q, 4)%nat; ((1 # 1)%Q, 5)%nat; ((1 # 1)%Q, 6)%nat; ((1 # 1)%Q, 7)%nat; ((1 # 1)%Q, 8)%nat; ((1 # 1)%Q, 9)%nat; ((1 # 1)%Q, 10)%nat; ((1 # 1)%Q, 11)%nat; ((1 # 1)%Q, 12)%nat; ((1 # 1)%Q, 13)%nat; ((1 # 1)%Q, 14)%nat; ((1 # 1)%Q, 15)%nat; ((1 # 1)%Q, 16)%nat; ((1 # 1)%Q, 17)%nat; ((1 # 1)%Q, 18)%nat; ((1 # 1)%Q, 19)%nat; ((1 # 1)%Q, 20)%nat; ((1 # 1)%Q, 21)%nat; ((1 # 1)%Q, 22)%nat; ((1 # 1)%Q, 23)%nat; ((1 # 1)%Q, 24)%nat; ((1 # 1)%Q, 25)%nat; ((1 # 1)%Q, 26)%nat; ((1 # 1)%Q, 27)%nat; ((1 # 1)%Q, 28)%nat; ((1 # 1)%Q, 29)%nat; ((1 # 1)%Q, 30)%nat; ((1 # 1)%Q, 31)%nat; ((1 # 1)%Q, 32)%nat; ((1 # 1)%Q, 33)%nat; ((1 # 1)%Q, 34)%nat; ((1 # 1)%Q, 35)%nat; ((1 # 1)%Q, 36)%nat; ((1 # 1)%Q, 37)%nat; ((1 # 1)%Q, 38)%nat; ((1 # 1)%Q, 39)%nat; ((1 # 1)%Q, 40)%nat; ((1 # 1)%Q, 41)%nat; ((1 # 1)%Q, 42)%nat; ((1 # 1)%Q, 43)%nat; ((1 # 1)%Q, 44)%nat; ((1 # 1)%Q, 45)%nat; ((1 # 1)%Q, 46)%nat; ((1 # 1)%Q, 47)%nat; ((1 # 1)%Q, 48)%nat; ((1 # 1)%Q, 49)%nat; ((1 # 1)%Q, 50)%nat; ((1 # 1)%Q, 51)%nat; ((1 # 1)%Q, 52)%nat; ((1 # 1)%Q, 53)%nat; ((1 # 1)%Q, 54)%nat; ((1 # 1)%Q, 55)%nat; ((1 # 1)%Q, 56)%nat; ((1 # 1)%Q, 57)%nat; ((1 # 1)%Q, 58)%nat; ((1 # 1)%Q, 59)%nat; ((1 # 1)%Q, 60)%nat; ((1 # 1)%Q, 61)%nat; ((1 # 1)%Q, 62)%nat; ((1 # 1)%Q, 63)%nat; ((1 # 1)%Q, 64)%nat; ((1 # 1)%Q, 65)%nat; ((1 # 1)%Q, 66)%nat; ((1 # 1)%Q, 67)%nat; ((1 # 1)%Q, 68)%nat; ((1 # 1)%Q, 69)%nat; ((1 # 1)%Q, 70)%nat; ((1 # 1)%Q, 71)%nat; ((1 # 1)%Q, 72)%nat; ((1 # 1)%Q, 73)%nat; ((1 # 1)%Q, 74)%nat; ((1 # 1)%Q, 75)%nat; ((1 # 1)%Q, 76)%nat; ((1 # 1)%Q, 77)%nat; ((1 # 1)%Q, 78)%nat; ((1 # 1)%Q, 79)%nat; ((1 # 1)%Q, 80)%nat; ((1 # 1)%Q, 81)%nat; ((1 # 1)%Q, 82)%nat; ((1 # 1)%Q, 83)%nat; ((1 # 1)%Q, 84)%nat; ((1 # 1)%Q, 85)%nat; ((1 # 1)%Q, 86)%nat; ((1 # 1)%Q, 87)%nat; ((1 # 1)%Q, 88)%nat; ((1 # 1)%Q, 89)%nat; ((1 # 1)%Q, 90)%nat] (* mM29 *);
   [((1 # 1)%Q, 0)%nat; ((1 # 1)%Q, 1)%nat; ((1 # 1)%Q, 2)%nat; ((1 # 1)%Q, 3)%nat; ((1 # 1)%Q, 4)%nat; ((1 # 1)%Q, 5)%nat; ((1 # 1)%Q, 6)%nat; ((1 # 1)%Q, 7)%nat; ((1 # 1)%Q, 8)%nat; ((1 # 1)%Q, 9)%nat; ((1 # 1)%Q, 10)%nat; ((1 # 1)%Q, 11)%nat; ((1 # 1)%Q, 12)%nat; ((1 # 1)%Q, 13)%nat; ((1 # 1)%Q, 14)%nat; ((1 # 1)%Q, 15)%nat; ((1 # 1)%Q, 16)%nat; ((1 # 1)%Q, 17)%nat; ((1 # 1)%Q, 18)%nat; ((1 # 1)%Q, 19)%nat; ((1 # 1)%Q, 20)%nat; ((1 # 1)%Q, 21)%nat; ((1 # 1)%Q, 22)%nat; ((1 # 1)%Q, 23)%nat; ((1 # 1)%Q, 24)%nat; ((1 # 1)%Q, 25)%nat; ((1 # 1)%Q, 26)%nat; ((1 # 1)%Q, 27)%nat; ((1 # 1)%Q, 28)%nat; ((1 # 1)%Q, 29)%nat; ((1 # 1)%Q, 30)%nat; ((1 # 1)%Q, 31)%nat; ((1 # 1)%Q, 32)%nat; ((1 # 1)%Q, 33)%nat; ((1 # 1)%Q, 34)%nat; ((1 # 1)%Q, 35)%nat; ((1 # 1)%Q, 36)%nat; ((1 # 1)%Q, 37)%nat; ((1 # 1)%Q, 38)%nat; ((1 # 1)%Q, 39)%nat; ((1 # 1)%Q, 40)%nat; ((1 # 1)%Q, 41)%nat; ((1 # 1)%Q, 42)%nat; ((1 # 1)%Q, 43)%nat; ((1 # 1)%Q, 44)%nat; ((1 # 1)%Q, 45)%nat; ((1 # 1)%Q, 46)%nat; ((1 # 1)%Q, 47)%nat; ((1 # 1)%Q, 48)%nat; ((1 # 1)%Q, 49)%nat; ((1 # 1)%Q, 50)%nat; ((1 # 1)%Q, 51)%nat; ((1 # 1)%Q, 52)%nat; ((1 # 1)%Q, 53)%nat; ((1 # 1)%Q, 54)%nat; ((1 # 1)%Q, 55)%nat; ((1 # 1)%Q, 56)%nat; ((1 # 1)%Q, 57)%nat; ((1 # 1)%Q, 58)%nat; ((1 # 1)%Q, 59)%nat; ((1 # 1)%Q, 60)%nat; ((1 # 1)%Q, 61)%nat; ((1 # 1)%Q, 62)%nat; ((1 # 1)%Q, 63)%nat; ((1 # 1)%Q, 64)%nat; ((1 # 1)%Q, 65)%nat; ((1 # 1)%Q, 66)%nat; ((1 # 1)%Q, 67)%nat; ((1 # 1)%Q, 68)%nat; ((1 # 1)%Q, 69)%nat; ((1 # 1)%Q, 70)%nat; ((1 # 1)%Q, 71)%nat; ((1 # 1)%Q, 72)%nat; ((1 # 1)%Q, 73)%nat; ((1 # 1)%Q, 74)%nat; ((1 # 1)%Q, 75)%nat; ((1 # 1)%Q, 76)%nat; ((1 # 1)%Q, 77)%nat; ((1 # 1)%Q, 78)%nat; ((1 # 1)%Q, 79)%nat; ((1 # 1)%Q, 80)%nat; ((1 # 1)%Q, 81)%nat; ((1 # 1)%Q, 82)%nat; ((1 # 1)%Q, 83)%nat; ((1 # 1)%Q, 84)%nat; ((1 # 1)%Q, 85)%nat; ((1 # 1)%Q, 86)%nat; ((1 # 1)%Q, 87)%nat; ((1 # 1)%Q, 88)%nat; ((1 # 1)%Q, 89)%nat; ((1 # 1)%Q, 90)%nat] (* mM30 *);
   [((1 # 1)%Q, 0)%nat; ((1 # 1)%Q, 1)%nat; ((1 # 1)%Q, 2)%nat; ((1 # 1)%Q, 3)%nat; ((1 # 1)%Q, 4)%nat; ((1 # 1)%Q, 5)%nat; ((1 # 1)%Q, 6)%nat; ((1 # 1)%Q, 7)%nat; ((1 # 1)%Q, 8)%nat; ((1 # 1)%Q, 9)%nat; ((1 # 1)%Q, 10)%nat; ((1 # 1)%Q, 11)%nat; ((1 # 1)%Q, 12)%nat; ((1 # 1)%Q, 13)%nat; ((1 # 1)%Q, 14)%nat; ((1 # 1)%Q, 15)%nat; ((1 # 1)%Q, 16)%nat; ((1 # 1)%Q, 17)%nat; ((1 # 1)%Q, 18)%nat; ((1 # 1)%Q, 19)%nat; ((1 # 1)%Q, 20)%nat; ((1 # 1)%Q, 21)%nat; ((1 # 1)%Q, 22)%nat; ((1 # 1)%Q, 23)%nat; ((1 # 1)%Q, 24)%nat; ((1 # 1)%Q, 25)%nat; ((1 # 1)%Q, 26)%nat; ((1 # 1)%Q, 27)%nat; ((1 # 1)%Q, 28)%nat; ((1 # 1)%Q, 29)%nat; ((1 # 1)%Q, 30)%nat; ((1 # 1)%Q, 31)%nat; ((1 # 1)%Q, 32)%nat; ((1 # 1)%Q, 33)%nat; ((1 # 1)%Q, 34)%nat; ((1 # 1)%Q, 35)%nat; ((1 # 1)%Q, 36)%nat; ((1 # 1)%Q, 37)%nat; ((1 # 1)%Q, 38)%nat; ((1 # 1)%Q, 39)%nat; ((1 # 1)%Q, 40)%nat; ((1 # 1)%Q, 41)%nat; ((1 # 1)%Q, 42)%nat; ((1 # 1)%Q, 43)%nat; ((1 # 1)%Q, 44)%nat; ((1 # 1)%Q, 45)%nat; ((1 # 1)%Q, 46)%nat; ((1 # 1)%Q, 47)%nat; ((1 # 1)%Q, 48)%nat; ((1 # 1)%Q, 49)%nat; ((1 # 1)%Q, 50)%nat; ((1 # 1)%Q, 51)%nat; ((1 # 1)%Q, 52)%nat; ((1 # 1)%Q, 53)%nat; ((1 # 1)%Q, 54)%nat; ((1 # 1)%Q, 55)%nat; ((1 # 1)%Q, 56)%nat; ((1 # 1)%Q, 57)%nat; ((1 # 1)%Q, 58)%nat; ((1 # 1)%Q, 59)%nat; ((1 # 1)%Q, 60)%nat; ((1 # 1)%Q, 61)%nat; ((1 # 1)%Q, 62)%nat; ((1 # 1)%Q, 63)%nat; ((1 # 1)%Q, 64)%nat; ((1 # 1)%Q, 65)%nat; ((1 # 1)%Q, 66)%nat; ((1 # 1)%Q, 67)%nat; ((1 # 1)%Q, 68)%nat; ((1 # 1)%Q, 69)%nat; ((1 # 1)%Q, 70)%nat; ((1 # 1)%Q, 71)%nat; ((1 # 1)%Q, 72)%nat; ((1 # 1)%Q, 73)%nat; ((1 # 1)%Q, 74)%nat; ((1 # 1)%Q, 75)%nat; ((1 # 1)%Q, 76)%nat; ((1 # 1)%Q, 77)%nat; ((1 # 1)%Q, 78)%nat; ((1 # 1)%Q, 79)%nat; ((1 # 1)%Q, 80)%nat; ((1 # 1)%Q, 81)%nat; ((1 # 1)%Q, 82)%nat; ((1 # 1)%Q, 83)%nat; ((1 # 1)%Q, 84)%nat; ((1 # 1)%Q, 85)%nat; ((1 # 1)%Q, 86)%nat; ((1 # 1)%Q, 87)%nat; ((1 # 1)%Q, 88)%nat; ((1 # 1)%Q, 89)%nat; ((1 # 1)%Q, 90)%nat] (* mM31 *);
   [((1 # 1)%Q, 0)%nat; ((1 # 1)%Q, 1)%nat; ((1 # 1)%Q, 2)%nat; ((2 # 1)%Q, 3)%nat; ((1 # 1)%Q, 4)%nat; ((1 # 1)%Q, 5)%nat; ((1 # 1)%Q, 6)%nat; ((1 # 1)%Q, 7)%nat; ((1 # 1)%Q, 8)%nat; ((3 # 1)%Q, 9)%nat; ((1 # 1)%Q, 10)%nat; ((1 # 1)%Q, 11)%nat; ((1 # 1)%Q, 12)%nat; ((1 # 1)%Q, 13)%nat; ((1 # 1)%Q, 14)%nat; ((1 # 1)%Q, 15)%nat; ((1 # 1)%Q, 16)%nat; ((1 # 1)%Q, 17)%nat; ((1 # 1)%Q, 18)%nat; ((1 # 1)%Q, 19)%nat; ((1 # 1)%Q, 20)%nat; ((2 # 1)%Q, 21)%nat; ((1 # 1)%Q, 22)%nat; ((1 # 1)%Q, 23)%nat; ((1 # 1)%Q, 24)%nat; ((1 # 1)%Q, 25)%nat; ((1 # 1)%Q, 26)%nat; ((1 # 1)%Q, 27)%nat; ((2 # 1)%Q, 28)%nat; ((1 # 1)%Q, 29)%nat; ((1 # 1)%Q, 30)%nat; ((1 # 1)%Q, 31)%nat; ((1 # 1)%Q, 32)%nat; ((1 # 1)%Q, 33)%nat; ((1 # 1)%Q, 34)%nat; ((1 # 1)%Q, 35)%nat; ((1 # 1)%Q, 36)%nat; ((1 # 1)%Q, 37)%nat; ((1 # 1)%Q, 38)%nat; ((1 # 1)%Q, 39)%nat; ((1 # 1)%Q, 40)%nat; ((1 # 1)%Q, 41)%nat; ((1 # 1)%Q, 42)%nat; ((1 # 1)%Q, 43)%nat; ((1 # 1)%Q, 44)%nat; ((6 # 1)%Q, 45)%nat; ((3152519739159347 # 4503599627370496)%Q, 46)%nat; ((1 # 1)%Q, 47)%nat; ((1 # 1)%Q, 48)%nat; ((1 # 1)%Q, 49)%nat; ((1 # 1)%Q, 50)%nat; ((1 # 1)%Q, 51)%nat; ((1 # 1)%Q, 52)%nat; ((1 # 1)%Q, 53)%nat; ((1 # 1)%Q, 54)%nat; ((1 # 1)%Q, 55)%nat; ((1 # 1)%Q, 56)%nat; ((1 # 1)%Q, 57)%nat; ((1 # 1)%Q, 58)%nat; ((1 # 1)%Q, 59)%nat; ((1 # 1)%Q, 60)%nat; ((1 # 1)%Q, 61)%nat; ((1 # 1)%Q, 62)%nat; ((1 # 1)%Q, 63)%nat; ((1 # 1)%Q, 64)%nat; ((3152519739159347 # 4503599627370496)%Q, 65)%nat; ((1 # 1)%Q, 66)%nat; ((1 # 1)%Q, 67)%nat; ((1 # 1)%Q, 68)%nat; ((3 # 2)%Q, 69)%nat; ((1 # 1)%Q, 70)%nat; ((1 # 1)%Q, 71)%nat; ((1 # 1)%Q, 72)%nat; ((1 # 1)%Q, 73)%nat; ((1 # 1)%Q, 74)%nat; ((1 # 1)%Q, 75)%nat; ((1 # 1)%Q, 76)%nat; ((1 # 1)%Q, 77)%nat; ((1 # 1)%Q, 78)%nat; ((1 # 1)%Q, 79)%nat; ((1 # 1)%Q, 80)%nat; ((1 # 1)%Q, 81)%nat; ((1 # 1)%Q, 82)%nat; ((1 # 1)%Q, 83)%nat; ((1 # 1)%Q, 84)%nat; ((1 # 1)%Q, 85)%nat; ((1 # 1)%Q, 86)%nat; ((1 # 1)%Q, 87)%nat; ((1 # 1)%Q, 88)%nat; ((1 # 1)%Q, 89)%nat; ((1 # 1)%Q, 90)%nat] (* mM32 *);
   [((1 # 1)%Q, 0)%nat; ((1 # 1)%Q, 1)%nat; ((1 # 1)%Q, 2)%nat; ((1 # 1)%Q, 3)%nat; ((1 # 1)%Q, 4)%nat; ((1 # 1)%Q, 5)%nat; ((1 # 1)%Q, 6)%nat; ((1 # 1)%Q, 7)%nat; ((1 # 1)%Q, 8)%nat; ((1 # 1)%Q, 9)%nat; ((1 # 1)%Q, 10)%nat; ((1 # 1)%Q, 11)%nat; ((1 # 1)%Q, 12)%nat; ((1 # 1)%Q, 13)%nat; ((1 # 1)%Q, 14)%nat; ((1 # 1)%Q, 15)%nat; ((1 # 1)%Q, 16)%nat; ((1 # 1)%Q, 17)%nat; ((1 # 1)%Q, 18)%nat; ((1 # 1)%Q, 19)%nat; ((1 # 1)%Q, 20)%nat; ((1 # 1)%Q, 21)%nat; ((1 # 1)%Q, 22)%nat; ((1 # 1)%Q, 23)%nat; ((1 # 1)%Q, 24)%nat; ((1 # 1)%Q, 25)%nat; ((1 # 1)%Q, 26)%nat; ((1 # 1)%Q, 27)%nat; ((1 # 1)%Q, 28)%nat; ((1 # 1)%Q, 29)%nat; ((1 # 1)%Q, 30)%nat; ((1 # 1)%Q, 31)%nat; ((1 # 1)%Q, 32)%nat; ((1 # 1)%Q, 33)%nat; ((1 # 1)%Q, 34)%nat; ((1 # 1)%Q, 35)%nat; ((1 # 1)%Q, 36)%nat; ((1 # 1)%Q, 37)%nat; ((1 # 1)%Q, 38)%nat; ((1 # 1)%Q, 39)%nat; ((1 # 1)%Q, 40)%nat; ((1 # 1)%Q, 41)%nat; ((1 # 1)%Q, 42)%nat; ((1 # 1)%Q, 43)%nat; ((1 # 1)%Q, 44)%nat; ((1 # 1)%Q, 45)%nat; ((1 # 1)%Q, 46)%nat; ((1 # 1)%Q, 47)%nat; ((1 # 1)%Q, 48)%nat; ((1 # 1)%Q, 49)%nat; ((1 # 1)%Q, 50)%nat; ((1 # 1)%Q, 51)%nat; ((1 # 1)%Q, 52)%nat; ((1 # 1)%Q, 53)%nat; ((1 # 1)%Q, 54)%nat; ((1 # 1)%Q, 55)%nat; ((1 # 1)%Q, 56)%nat; ((1 # 1)%Q, 57)%nat; ((1 # 1)%Q, 58)%nat; ((1 # 1)%Q, 59)%nat; ((1 # 1)%Q, 60)%nat; ((1 # 1)%Q, 61)%nat; ((1 # 1)%Q, 62)%nat; ((1 # 1)%Q, 63)%nat; ((1 # 1)%Q, 64)%nat; ((1 # 1)%Q, 65)%nat; ((1 # 1)%Q, 66)%nat; ((1 # 1)%Q, 67)%nat; ((1 # 1)%Q, 68)%nat; ((1 # 1)%Q, 69)%nat; ((1 # 1)%Q, 70)%nat; ((1 # 1)%Q, 71)%nat; ((1 # 1)%Q, 72)%nat; ((1 # 1)%Q, 73)%nat; ((1 # 1)%Q, 74)%nat; ((1 # 1)%Q, 75)%nat; ((1 # 1)%Q, 76)%nat; ((1 # 1)%Q, 77)%nat; ((1 # 1)%Q, 78)%nat; ((1 # 1)%Q, 79)%nat; ((1 # 1)%Q, 80)%nat; ((1 # 1)%Q, 81)%nat; ((1 # 1)%Q, 82)%nat; ((1 # 1)%Q, 83)%nat; ((1 # 1)%Q, 84)%nat; ((1 # 1)%Q, 85)%nat; ((1 # 1)%Q, 86)%nat; ((1 # 1)%Q, 87)%nat; ((1 # 1)%Q, 88)%nat; ((1 # 1)%Q, 89)%nat; ((1 # 1)%Q, 90)%nat] (* mM33 *);
   [((1 # 1)%Q, 0)%nat; ((1 # 1)%Q, 1)%nat; ((1 # 1)%Q, 2)%nat; ((1 # 1)%Q, 3)%nat; ((1 # 1)%Q, 4)%nat; ((1 # 1)%Q, 5)%nat; ((1 # 1)%Q, 6)%nat; ((1 # 1)%Q, 7)%nat; ((1 # 1)%Q, 8)%nat; ((1 # 1)%Q, 9)%nat; ((1 # 1)%Q, 10)%nat; ((1 # 1)%Q, 11)%nat; ((1 # 1)%Q, 12)%nat; ((1 # 1)%Q, 13)%nat; ((1 # 1)%Q, 14)%nat; ((1 # 1)%Q, 15)%nat; ((1 # 1)%Q, 16)%nat; ((1 # 1)%Q, 17)%nat; ((1 # 1)%Q, 18)%nat; ((1 # 1)%Q, 19)%nat; ((1 # 1)%Q, 20)%nat; ((1 # 1)%Q, 21)%nat; ((1 # 1)%Q, 22)%nat; ((1 # 1)%Q, 23)%nat; ((1 # 1)%Q, 24)%nat; ((1 # 1)%Q, 25)%nat; ((1 # 1)%Q, 26)%nat; ((1 # 1)%Q, 27)%nat; ((1 # 1)%Q, 28)%nat; ((1 # 1)%Q, 29)%nat; ((1 # 1)%Q, 30)%nat; ((1 # 1)%Q, 31)%nat; ((1 # 1)%Q, 32)%nat; ((1 # 1)%Q, 33)%nat; ((1 # 1)%Q, 34)%nat; ((1 # 1)%Q, 35)%nat; ((1 # 1)%Q, 36)%nat; ((1 # 1)%Q, 37)%nat; ((1 # 1)%Q, 38)%nat; ((1 # 1)%Q, 39)%nat; ((1 # 1)%Q, 40)%nat; ((1 # 1)%Q, 41)%nat; ((1 # 1)%Q, 42)%nat; ((1 # 1)%Q, 43)%nat; ((1 # 1)%Q, 44)%nat; ((1 # 1)%Q, 45)%nat; ((1 # 1)%Q, 46)%nat; ((1 # 1)%Q, 47)%nat; ((1 # 1)%Q, 48)%nat; ((1 # 1)%Q, 49)%nat; ((1 # 1)%Q, 50)%nat; ((1 # 1)%Q, 51)%nat; ((1 # 1)%Q, 52)%nat; ((1 # 1)%Q, 53)%nat; ((1 # 1)%Q, 54)%nat; ((1 # 1)%Q, 55)%nat; ((1 # 1)%Q, 56)%nat; ((1 # 1)%Q, 57)%nat; ((1 # 1)%Q, 58)%nat; ((1 # 1)%Q, 59)%nat; ((1 # 1)%Q, 60)%nat; ((1 # 1)%Q, 61)%nat; ((1 # 1)%Q, 62)%nat; ((1 # 1)%Q, 63)%nat; ((1 # 1)%Q, 64)%nat; ((1 # 1)%Q, 65)%nat; ((1 # 1)%Q, 66)%nat; ((1 # 1)%Q, 67)%nat; ((1 # 1)%Q, 68)%nat; ((1 # 1)%Q, 69)%nat; ((1 # 1)%Q, 70)%nat; ((1 # 1)%Q, 71)%nat; ((1 # 1)%Q, 72)%nat; ((1 # 1)%Q, 73)%nat; ((1 # 1)%Q, 74)%nat; ((1 # 1)%Q, 75)%nat; ((1 # 1)%Q, 76)%nat; ((1 # 1)%Q, 77)%nat; ((1 # 1)%Q, 78)%nat; ((1 # 1)%Q, 79)%nat; ((1 # 1)%Q, 80)%nat; ((1 # 1)%Q, 81)%nat; ((1 # 1)%Q, 82)%nat; ((1 # 1)%Q, 83)%nat; ((1 # 1)%Q, 84)%nat; ((1 # 1)%Q, 85)%nat; ((1 # 1)%Q, 86)%nat; ((1 # 1)%Q, 87)%nat; ((1 # 1)%Q, 88)%nat; ((1 # 1)%Q, 89)%nat; ((1 # 1)%Q, 90)%nat] (* mM34 *);
   [((1 # 1)%Q, 0)%nat; ((1 # 1)%Q, 1)%nat; ((1 # 1)%Q, 2)%nat; ((2 # 1)%Q, 3)%nat; ((1 # 1)%Q, 4)%nat; ((1 # 1)%Q, 5)%nat; ((1 # 1)%Q, 6)%nat; ((1 # 1)%Q, 7)%nat; ((1 # 1)%Q, 8)%nat; ((3 # 1)%Q, 9)%nat; ((1 # 1)%Q, 10)%nat; ((1 # 1)%Q, 11)%nat; ((1 # 1)%Q, 12)%nat; ((1 # 1)%Q, 13)%nat; ((1 # 1)%Q, 14)%nat; ((1 # 1)%Q, 15)%nat; ((1 # 1)%Q, 16)%nat; ((1 # 1)%Q, 17)%nat; ((1 # 1)%Q, 18)%nat; ((1 # 1)%Q, 19)%nat; ((1 # 1)%Q, 20)%nat; ((2 # 1)%Q, 21)%nat; ((1 # 1)%Q, 22)%nat; ((1 # 1)%Q, 23)%nat; ((1 # 1)%Q, 24)%nat; ((1 # 1)%Q, 25)%nat; ((1 # 1)%Q, 26)%nat; ((1 # 1)%Q, 27)%nat; ((2 # 1)%Q, 28)%nat; ((1 # 1)%Q, 29)%nat; ((1 # 1)%Q, 30)%nat; ((1 # 1)%Q, 31)%nat; ((1 # 1)%Q, 32)%nat; ((1 # 1)%Q, 33)%nat; ((1 # 1)%Q, 34)%nat; ((1 # 1)%Q, 35)%nat; ((1 # 1)%Q, 36)%nat; ((1 # 1)%Q, 37)%nat; ((1 # 1)%Q, 38)%nat; ((1 # 1)%Q, 39)%nat; ((1 # 1)%Q, 40)%nat; ((1 # 1)%Q, 41)%nat; ((1 # 1)%Q, 42)%nat; ((1 # 1)%Q, 43)%nat; ((1 # 1)%Q, 44)%nat; ((6 # 1)%Q, 45)%nat; ((3152519739159347 # 4503599627370496)%Q, 46)%nat; ((1 # 1)%Q, 47)%nat; ((1 # 1)%Q, 48)%nat; ((1 # 1)%Q, 49)%nat; ((1 # 1)%Q, 50)%nat; ((1 # 1)%Q, 51)%nat; ((1 # 1)%Q, 52)%nat; ((1 # 1)%Q, 53)%nat; ((1 # 1)%Q, 54)%nat; ((1 # 1)%Q, 55)%nat; ((1 # 1)%Q, 56)%nat; ((1 # 1)%Q, 57)%nat; ((1 # 1)%Q, 58)%nat; ((1 # 1)%Q, 59)%nat; ((1 # 1)%Q, 60)%nat; ((1 # 1)%Q, 61)%nat; ((1 # 1)%Q, 62)%nat; ((1 # 1)%Q, 63)%nat; ((1 # 1)%Q, 64)%nat; ((3152519739159347 # 4503599627370496)%Q, 65)%nat; ((1 # 1)%Q, 66)%nat; ((1 # 1)%Q, 67)%nat; ((1 # 1)%Q, 68)%nat; ((3 # 2)%Q, 69)%nat; ((1 # 1)%Q, 70)%nat; ((1 # 1)%Q, 71)%nat; ((1 # 1)%Q, 72)%nat; ((1 # 1)%Q, 73)%nat; ((1 # 1)%Q, 74)%nat; ((1 # 1)%Q, 75)%nat; ((1 # 1)%Q, 76)%nat; ((1 # 1)%Q, 77)%nat; ((1 # 1)%Q, 78)%nat; ((1 # 1)%Q, 79)%nat; ((1 # 1)%Q, 80)%nat; ((1 # 1)%Q, 81)%nat; ((1 # 1)%Q, 82)%nat; ((1 # 1)%Q, 83)%nat; ((1 # 1)%Q, 84)%nat; ((1 # 1)%Q, 85)%nat; ((1 # 1)%Q, 86)%nat; ((1 # 1)%Q, 87)%nat; ((1 # 1)%Q, 88)%nat; ((1 # 1)%Q, 89)%nat; ((1 # 1)%Q, 90)%nat] (* mM35 *);
   [((1 # 1)%Q, 0)%nat; ((1 # 1)%Q, 1)%nat; ((1 # 1)%Q, 2)%nat; ((2 # 1)%Q, 3)%nat; ((1 # 1)%Q, 4)%nat; ((1 # 1)%Q, 5)%nat; ((1 # 1)%Q, 6)%nat; ((1 # 1)%Q, 7)%nat; ((1 # 1)%Q, 8)%nat; ((3 # 1)%Q, 9)%nat; ((1 # 1)%Q, 10)%nat; ((1 # 1)%Q, 11)%nat; ((1 # 1)%Q, 12)%nat; ((1 # 1)%Q, 13)%nat; ((1 # 1)%Q, 14)%nat; ((1 # 1)%Q, 15)%nat; ((1 # 1)%Q, 16)%nat; ((1 # 1)%Q, 17)%nat; ((1 # 1)%Q, 18)%nat; ((1 # 1)%Q, 19)%nat; ((1 # 1)%Q, 20)%nat; ((2 # 1)%Q, 21)%nat; ((1 # 1)%Q, 22)%nat; ((1 # 1)%Q, 23)%nat; ((1 # 1)%Q, 24)%nat; ((1 # 1)%Q, 25)%nat; ((1 # 1)%Q, 26)%nat; ((1 # 1)%Q, 27)%nat; ((2 # 1)%Q, 28)%nat; ((1 # 1)%Q, 29)%nat; ((1 # 1)%Q, 30)%nat; ((1 # 1)%Q, 31)%nat; ((1 # 1)%Q, 32)%nat; ((1 # 1)%Q, 33)%nat; ((1 # 1)%Q, 34)%nat; ((1 # 1)%Q, 35)%nat; ((1 # 1)%Q, 36)%nat; ((1 # 1)%Q, 37)%nat; ((1 # 1)%Q, 38)%nat; ((1 # 1)%Q, 39)%nat; ((1 # 1)%Q, 40)%nat; ((1 # 1)%Q, 41)%nat; ((1 # 1)%Q, 42)%nat; ((1 # 1)%Q, 43)%nat; ((1 # 1)%Q, 44)%nat; ((6 # 1)%Q, 45)%nat; ((3152519739159347 # 4503599627370496)%Q, 46)%nat; ((1 # 1)%Q, 47)%nat; ((1 # 1)%Q, 48)%nat; ((1 # 1)%Q, 49)%nat; ((1 # 1)%Q, 50)%nat; ((1 # 1)%Q, 51)%nat; ((1 # 1)%Q, 52)%nat; ((1 # 1)%Q, 53)%nat; ((1 # 1)%Q, 54)%nat; ((1 # 1)%Q, 55)%nat; ((1 # 1)%Q, 56)%nat; ((1 # 1)%Q, 57)%nat; ((1 # 1)%Q, 58)%nat; ((1 # 1)%Q, 59)%nat; ((1 # 1)%Q, 60)%nat; ((1 # 1)%Q, 61)%nat; ((1 # 1)%Q, 62)%nat; ((1 # 1)%Q, 63)%nat; ((1 # 1)%Q, 64)%nat; ((1 # 1)%Q, 65)%nat; ((1 # 1)%Q, 66)%nat; ((1 # 1)%Q, 67)%nat; ((1 # 1)%Q, 68)%nat; ((3 # 2)%Q, 69)%nat; ((1 # 1)%Q, 70)%nat; ((1 # 1)%Q, 71)%nat; ((1 # 1)%Q, 72)%nat; ((1 # 1)%Q, 73)%nat; ((1 # 1)%Q, 74)%nat; ((1 # 1)%Q, 75)%nat; ((1 # 1)%Q, 76)%nat; ((1 # 1)%Q, 77)%nat; ((1 # 1)%Q, 78)%nat; ((1 # 1)%Q, 79)%nat; ((1 # 1)%Q, 80)%nat; ((1 # 1)%Q, 81)%nat; ((1 # 1)%Q, 82)%nat; ((1 # 1)%Q, 83)%nat; ((1 # 1)%Q, 84)%nat; ((1 # 1)%Q, 85)%nat; ((1 # 1)%Q, 86)%nat; ((1 # 1)%Q, 87)%nat; ((1 # 1)%Q, 88)%nat; ((1 # 1)%Q, 89)%nat; ((1 # 1)%Q, 90)%nat] (* mM36 *);
   [((1 # 1)%Q, 0)%nat; ((1 # 1)%Q, 1)%nat; ((1 # 1)%Q, 2)%nat; ((2 # 1)%Q, 3)%nat; ((1 # 1)%Q, 4)%nat; ((1 # 1)%Q, 5)%nat; ((1 # 1)%Q, 6)%nat; ((1 # 1)%Q, 7)%nat; ((1 # 1)%Q, 8)%nat; ((3 # 1)%Q, 9)%nat; ((1 # 1)%Q, 10)%nat; ((1 # 1)%Q, 11)%nat; ((1 # 1)%Q, 12)%nat; ((1 # 1)%Q, 13)%nat; ((1 # 1)%Q, 14)%nat; ((1 # 1)%Q, 15)%nat; ((1 # 1)%Q, 16)%nat; ((1 # 1)%Q, 17)%nat; ((1 # 1)%Q, 18)%nat; ((1 # 1)%Q, 19)%nat; ((1 # 1)%Q, 20)%nat; ((2 # 1)%Q, 21)%nat; ((1 # 1)%Q, 22)%nat; ((1 # 1)%Q, 23)%nat; ((1 # 1)%Q, 24)%nat; ((1 # 1)%Q, 25)%nat; ((1 # 1)%Q, 26)%nat; ((1 # 1)%Q, 27)%nat; ((2 # 1)%Q, 28)%nat; ((1 # 1)%Q, 29)%nat; ((1 # 1)%Q, 30)%nat; ((1 # 1)%Q, 31)%nat; ((1 # 1)%Q, 32)%nat; ((1 # 1)%Q, 33)%nat; ((1 # 1)%Q, 34)%nat; ((1 # 1)%Q, 35)%nat; ((1 # 1)%Q, 36)%nat; ((1 # 1)%Q, 37)%nat; ((1 # 1)%Q, 38)%nat; ((1 # 1)%Q, 39)%nat; ((1 # 1)%Q, 40)%nat; ((1 # 1)%Q, 41)%nat; ((1 # 1)%Q, 42)%nat; ((1 # 1)%Q, 43)%nat; ((1 # 1)%Q, 44)%nat; ((6 # 1)%Q, 45)%nat; ((3152519739159347 # 4503599627370496)%Q, 46)%nat; ((1 # 1)%Q, 47)%nat; ((1 # 1)%Q, 48)%nat; ((1 # 1)%Q, 49)%nat; ((1 # 1)%Q, 50)%nat; ((1 # 1)%Q, 51)%nat; ((1 # 1)%Q, 52)%nat; ((1 # 1)%Q, 53)%nat; ((1 # 1)%Q, 54)%nat; ((1 # 1)%Q, 55)%nat; ((1 # 1)%Q, 56)%nat; ((1 # 1)%Q, 57)%nat; ((1 # 1)%Q, 58)%nat; ((1 # 1)%Q, 59)%nat; ((1 # 1)%Q, 60)%nat; ((1 # 1)%Q, 61)%nat; ((1 # 1)%Q, 62)%nat; ((1 # 1)%Q, 63)%nat; ((1 # 1)%Q, 64)%nat; ((3152519739159347 # 4503599627370496)%Q, 65)%nat; ((1 # 1)%Q, 66)%nat; ((1 # 1)%Q, 67)%nat; ((1 # 1)%Q, 68)%nat; ((3 # 2)%Q, 69)%nat; ((1 # 1)%Q, 70)%nat; ((1 # 1)%Q, 71)%nat; ((1 # 1)%Q, 72)%nat; ((1 # 1)%Q, 73)%nat; ((1 # 1)%Q, 74)%nat; ((1 # 1)%Q, 75)%nat; ((1 # 1)%Q, 76)%nat; ((1 # 1)%Q, 77)%nat; ((1 # 1)%Q, 78)%nat; ((1 # 1)%Q, 79)%nat; ((1 # 1)%Q, 80)%nat; ((1 # 1)%Q, 81)%nat; ((1 # 1)%Q, 82)%nat; ((1 # 1)%Q, 83)%nat; ((1 # 1)%Q, 84)%nat; ((1 # 1)%Q, 85)%nat; ((1 # 1)%Q, 86)%nat; ((1 # 1)%Q, 87)%nat; ((1 # 1)%Q, 88)%nat; ((1 # 1)%Q, 89)%nat; ((1 # 1)%Q, 90)%nat] (* mM37 *);
   [((1 # 1)%Q, 0)%nat; ((1 # 1)%Q, 1)%nat; ((1 # 1)%Q, 2)%nat; ((2 # 1)%Q, 3)%nat; ((1 # 1)%Q, 4)%nat; ((1 # 1)%Q, 5)%nat; ((1 # 1)%Q, 6)%nat; ((1 # 1)%Q, 7)%nat; ((1 # 1)%Q, 8)%nat; ((3 # 1)%Q, 9)%nat; ((1 # 1)%Q, 10)%nat; ((1 # 1)%Q, 11)%nat; ((1 # 1)%Q, 12)%nat; ((1 # 1)%Q, 13)%nat; ((1 # 1)%Q, 14)%nat; ((1 # 1)%Q, 15)%nat; ((1 # 1)%Q, 16)%nat; ((1 # 1)%Q, 17)%nat; ((1 # 1)%Q, 18)%nat; ((1 # 1)%Q, 19)%nat; ((1 # 1)%Q, 20)%nat; ((2 # 1)%Q, 21)%nat; ((1 # 1)%Q, 22)%nat; ((1 # 1)%Q, 23)%nat; ((1 # 1)%Q, 24)%nat; ((1 # 1)%Q, 25)%nat; ((1 # 1)%Q, 26)%nat; ((1 # 1)%Q, 27)%nat; ((2 # 1)%Q, 28)%nat; ((1 # 1)%Q, 29)%nat; ((1 # 1)%Q, 30)%nat; ((1 # 1)%Q, 31)%nat; ((1 # 1)%Q, 32)%nat; ((1 # 1)%Q, 33)%nat; ((1 # 1)%Q, 34)%nat; ((1 # 1)%Q, 35)%nat; ((1 # 1)%Q, 36)%nat; ((1 # 1)%Q, 37)%nat; ((1 # 1)%Q, 38)%nat; ((1 # 1)%Q, 39)%nat; ((1 # 1)%Q, 40)%nat; ((1 # 1)%Q, 41)%nat; ((1 # 1)%Q, 42)%nat; ((1 # 1)%Q, 43)%nat; ((1 # 1)%Q, 44)%nat; ((6 # 1)%Q, 45)%nat; ((3152519739159347 # 4503599627370496)%Q, 46)%nat; ((1 # 1)%Q, 47)%nat; ((1 # 1)%Q, 48)%nat; ((1 # 1)%Q, 49)%nat; ((1 # 1)%Q, 50)%nat; ((1 # 1)%Q, 51)%nat; ((1 # 1)%Q, 52)%nat; ((1 # 1)%Q, 53)%nat; ((1 # 1)%Q, 54)%nat; ((1 # 1)%Q, 55)%nat; ((1 # 1)%Q, 56)%nat; ((1 # 1)%Q, 57)%nat; ((1 # 1)%Q, 58)%nat; ((1 # 1)%Q, 59)%nat; ((1 # 1)%Q, 60)%nat; ((1 # 1)%Q, 61)%nat; ((1 # 1)%Q, 62)%nat; ((1 # 1)%Q, 63)%nat; ((1 # 1)%Q, 64)%nat; ((3152519739159347 # 4503599627370496)%Q, 65)%nat; ((1 # 1)%Q, 66)%nat; ((1 # 1)%Q, 67)%nat; ((1 # 1)%Q, 68)%nat; ((3 # 2)%Q, 69)%nat; ((1 # 1)%Q, 70)%nat; ((1 # 1)%Q, 71)%nat; ((1 # 1)%Q, 72)%nat; ((1 # 1)%Q, 73)%nat; ((1 # 1)%Q, 74)%nat; ((1 # 1)%Q, 75)%nat; ((1 # 1)%Q, 76)%nat; ((1 # 1)%Q, 77)%nat; ((1 # 1)%Q, 78)%nat; ((1 # 1)%Q, 79)%nat; ((1 # 1)%Q, 80)%nat; ((1 # 1)%Q, 81)%nat; ((1 # 1)%Q, 82)%nat; ((1 # 1)%Q, 83)%nat; ((1 # 1)%Q, 84)%nat; ((1 # 1)%Q, 85)%nat; ((1 # 1)%Q, 86)%nat; ((1 # 1)%Q, 87)%nat; ((1 # 1)%Q, 88)%nat; ((1 # 1)%Q, 89)%nat; ((1 # 1)%Q, 90)%nat] (* mM38 *);
   [((1 # 1)%Q, 0)%nat; ((1 # 1)%Q, 1)%nat; ((1 # 1)%Q, 2)%nat; ((2 # 1)%Q, 3)%nat; ((1 # 1)%Q, 4)%nat; ((1 # 1)%Q, 5)%nat; ((1 # 1)%Q, 6)%nat; ((1 # 1)%Q, 7)%nat; ((1 # 1)%Q, 8)%nat; ((3 # 1)%Q, 9)%nat; ((5 # 2)%Q, 10)%nat; ((1 # 1)%Q, 11)%nat; ((1 # 1)%Q, 12)%nat; ((1 # 1)%Q, 13)%nat; ((1 # 1)%Q, 14)%nat; ((1 # 1)%Q, 15)%nat; ((1 # 1)%Q, 16)%nat; ((1 # 1)%Q, 17)%nat; ((1 # 1)%Q, 18)%nat; ((1 # 1)%Q, 19)%nat; ((1 # 1)%Q, 20)%nat; ((2 # 1)%Q, 21)%nat; ((1 # 1)%Q, 22)%nat; ((1 # 1)%Q, 23)%nat; ((1 # 1)%Q, 24)%nat; ((1 # 1)%Q, 25)%nat; ((1 # 1)%Q, 26)%nat; ((1 # 1)%Q, 27)%nat; ((2 # 1)%Q, 28)%nat; ((1 # 1)%Q, 29)%nat; ((1 # 1)%Q, 30)%nat; ((1 # 1)%Q, 31)%nat; ((1 # 1)%Q, 32)%nat; ((1 # 1)%Q, 33)%nat; ((1 # 1)%Q, 34)%nat; ((1 # 1)%Q, 35)%nat; ((1 # 1)%Q, 36)%nat; ((1 # 1)%Q, 37)%nat; ((1 # 1)%Q, 38)%nat; ((1 # 1)%Q, 39)%nat; ((1 # 1)%Q, 40)%nat; ((1 # 1)%Q, 41)%nat; ((1 # 1)%Q, 42)%nat; ((1 # 1)%Q, 43)%nat; ((1 # 1)%Q, 44)%nat; ((6 # 1)%Q, 45)%nat; ((1 # 1)%Q, 46)%nat; ((1 # 1)%Q, 47)%nat; ((1 # 1)%Q, 48)%nat; ((1 # 1)%Q, 49)%nat; ((1 # 1)%Q, 50)%nat; ((1 # 1)%Q, 51)%nat; ((1 # 1)%Q, 52)%nat; ((5 # 2)%Q, 53)%nat; ((1 # 1)%Q, 54)%nat; ((1 # 1)%Q, 55)%nat; ((1 # 1)%Q, 56)%nat; ((1 # 1)%Q, 57)%nat; ((1 # 1)%Q, 58)%nat; ((1 # 1)%Q, 59)%nat; ((1 # 1)%Q, 60)%nat; ((1 # 1)%Q, 61)%nat; ((1 # 1)%Q, 62)%nat; ((1 # 1)%Q, 63)%nat; ((1 # 1)%Q, 64)%nat; ((1 # 1)%Q, 65)%nat; ((1 # 1)%Q, 66)%nat; ((1 # 1)%Q, 67)%nat; ((1 # 1)%Q, 68)%nat; ((3 # 2)%Q, 69)%nat; ((1 # 1)%Q, 70)%nat; ((1 # 1)%Q, 71)%nat; ((1 # 1)%Q, 72)%nat; ((1 # 1)%Q, 73)%nat; ((1 # 1)%Q, 74)%nat; ((1 # 1)%Q, 75)%nat; ((1 # 1)%Q, 76)%nat; ((1 # 1)%Q, 77)%nat; ((1 # 1)%Q, 78)%nat; ((1 # 1)%Q, 79)%nat; ((1 # 1)%Q, 80)%nat; ((1 # 1)%Q, 81)%nat; ((1 # 1)%Q, 82)%nat; ((1 # 1)%Q, 83)%nat; ((1 # 1)%Q, 84)%nat; ((1 # 1)%Q, 85)%nat; ((1 # 1)%Q, 86)%nat; ((1 # 1)%Q, 87)%nat; ((1 # 1)%Q, 88)%nat; ((1 # 1)%Q, 89)%nat; ((1 # 1)%Q, 90)%nat] (* mM39 *);
   [((1 # 1)%Q, 0)%nat; ((1 # 1)%Q, 1)%nat; ((1 # 1)%Q, 2)%nat; ((1 # 1)%Q, 3)%nat; ((1 # 1)%Q, 4)%nat; ((1 # 1)%Q, 5)%nat; ((1 # 1)%Q, 6)%nat; ((1 # 1)%Q, 7)%nat; ((1 # 1)%Q, 8)%nat; ((1 # 1)%Q, 9)%nat; ((1 # 1)%Q, 10)%nat; ((1 # 1)%Q, 11)%nat; ((1 # 1)%Q, 12)%nat; ((1 # 1)%Q, 13)%nat; ((1 # 1)%Q, 14)%nat; ((1 # 1)%Q, 15)%nat; ((1 # 1)%Q, 16)%nat; ((1 # 1)%Q, 17)%nat; ((1 # 1)%Q, 18)%nat; ((1 # 1)%Q, 19)%nat; ((1 # 1)%Q, 20)%nat; ((1 # 1)%Q, 21)%nat; ((1 # 1)%Q, 22)%nat; ((1 # 1)%Q, 23)%nat; ((1 # 1)%Q, 24)%nat; ((1 # 1)%Q, 25)%nat; ((1 # 1)%Q, 26)%nat; ((1 # 1)%Q, 27)%nat; ((1 # 1)%Q, 28)%nat; ((1 # 1)%Q, 29)%nat; ((1 # 1)%Q, 30)%nat; ((1 # 1)%Q, 31)%nat; ((1 # 1)%Q, 32)%nat; ((1 # 1)%Q, 33)%nat; ((1 # 1)%Q, 34)%nat; ((1 # 1)%Q, 35)%nat; ((1 # 1)%Q, 36)%nat; ((1 # 1)%Q, 37)%nat; ((1 # 1)%Q, 38)%nat; ((1 # 1)%Q, 39)%nat; ((1 # 1)%Q, 40)%nat; ((1 # 1)%Q, 41)%nat; ((1 # 1)%Q, 42)%nat; ((1 # 1)%Q, 43)%nat; ((1 # 1)%Q, 44)%nat; ((1 # 1)%Q, 45)%nat; ((1 # 1)%Q, 46)%nat; ((1 # 1)%Q, 47)%nat; ((1 # 1)%Q, 48)%nat; ((1 # 1)%Q, 49)%nat; ((1 # 1)%Q, 50)%nat; ((1 # 1)%Q, 51)%nat; ((1 # 1)%Q, 52)%nat; ((1 # 1)%Q, 53)%nat; ((1 # 1)%Q, 54)%nat; ((1 # 1)%Q, 55)%nat; ((1 # 1)%Q, 56)%nat; ((1 # 1)%Q, 57)%nat; ((1 # 1)%Q, 58)%nat; ((1 # 1)%Q, 59)%nat; ((1 # 1)%Q, 60)%nat; ((1 # 1)%Q, 61)%nat; ((1 # 1)%Q, 62)%nat; ((1 # 1)%Q, 63)%nat; ((1 # 1)%Q, 64)%nat; ((1 # 1)%Q, 65)%nat; ((1 # 1)%Q, 66)%nat; ((1 # 1)%Q, 67)%nat; ((1 # 1)%Q, 68)%nat; ((1 # 1)%Q, 69)%nat; ((1 # 1)%Q, 70)%nat; ((1 # 1)%Q, 71)%nat; ((1 # 1)%Q, 72)%nat; ((1 # 1)%Q, 73)%nat; ((1 # 1)%Q, 74)%nat; ((1 # 1)%Q, 75)%nat; ((1 # 1)%Q, 76)%nat; ((1 # 1)%Q, 77)%nat; ((1 # 1)%Q, 78)%nat; ((1 # 1)%Q, 79)%nat; ((1 # 1)%Q, 80)%nat; ((1 # 1)%Q, 81)%nat; ((1 # 1)%Q, 82)%nat; ((1 # 1)%Q, 83)%nat; ((1 # 1)%Q, 84)%nat; ((1 # 1)%Q, 85)%nat; ((1 # 1)%Q, 86)%nat; ((1 # 1)%Q, 87)%nat; ((1 # 1)%Q, 88)%nat; ((1 # 1)%Q, 89)%nat; ((1 # 1)%Q, 90)%nat] (* mM40 *);
   [((1 # 1)%Q, 0)%nat; ((1 # 1)%Q, 1)%nat; ((1 # 1)%Q, 2)%nat; ((1 # 1)%Q, 3)%nat; ((1 # 1)%Q, 4)%nat; ((1 # 1)%Q, 5)%nat; ((1 # 1)%Q, 6)%nat; ((1 # 1)%Q, 7)%nat; ((1 # 1)%Q, 8)%nat; ((1 # 1)%Q, 9)%nat; ((1 # 1)%Q, 10)%nat; ((1 # 1)%Q, 11)%nat; ((1 # 1)%Q, 12)%nat; ((1 # 1)%Q, 13)%nat; ((1 # 1)%Q, 14)%nat; ((1 # 1)%Q, 15)%nat; ((1 # 1)%Q, 16)%nat; ((1 # 1)%Q, 17)%nat; ((1 # 1)%Q, 18)%nat; ((1 # 1)%Q, 19)%nat; ((1 # 1)%Q, 20)%nat; ((1 # 1)%Q, 21)%nat; ((1 # 1)%Q, 22)%nat; ((1 # 1)%Q, 23)%nat; ((1 # 1)%Q, 24)%nat; ((1 # 1)%Q, 25)%nat; ((1 # 1)%Q, 26)%nat; ((1 # 1)%Q, 27)%nat; ((1 # 1)%Q, 28)%nat; ((1 # 1)%Q, 29)%nat; ((1 # 1)%Q, 30)%nat; ((1 # 1)%Q, 31)%nat; ((1 # 1)%Q, 32)%nat; ((1 # 1)%Q, 33)%nat; ((1 # 1)%Q, 34)%nat; ((1 # 1)%Q, 35)%nat; ((1 # 1)%Q, 36)%nat; ((1 # 1)%Q, 37)%nat; ((1 # 1)%Q, 38)%nat; ((1 # 1)%Q, 39)%nat; ((1 # 1)%Q, 40)%nat; ((1 # 1)%Q, 41)%nat; ((1 # 1)%Q, 42)%nat; ((1 # 1)%Q, 43)%nat; ((1 # 1)%Q, 44)%nat; ((1 # 1)%Q, 45)%nat; ((1 # 1)%Q, 46)%nat; ((1 # 1)%Q, 47)%nat; ((1 # 1)%Q, 48)%nat; ((1 # 1)%Q, 49)%nat; ((1 # 1)%Q, 50)%nat; ((1 # 1)%Q, 51)%nat; ((1 # 1)%Q, 52)%nat; ((1 # 1)%Q, 53)%nat; ((1 # 1)%Q, 54)%nat; ((1 # 1)%Q, 55)%nat; ((1 # 1)%Q, 56)%nat; ((1 # 1)%Q, 57)%nat; ((1 # 1)%Q, 58)%nat; ((1 # 1)%Q, 59)%nat; ((1 # 1)%Q, 60)%nat; ((1 # 1)%Q, 61)%nat; ((1 # 1)%Q, 62)%nat; ((1 # 1)%Q, 63)%nat; ((1 # 1)%Q, 64)%nat; ((1 # 1)%Q, 65)%nat; ((1 # 1)%Q, 66)%nat; ((1 # 1)%Q, 67)%nat; ((1 # 1)%Q, 68)%nat; ((1 # 1)%Q, 69)%nat; ((1 # 1)%Q, 70)%nat; ((1 # 1)%Q, 71)%nat; ((1 # 1)%Q, 72)%nat; ((1 # 1)%Q, 73)%nat; ((1 # 1)%Q, 74)%nat; ((1 # 1)%Q, 75)%nat; ((1 # 1)%Q, 76)%nat; ((1 # 1)%Q, 77)%nat; ((1 # 1)%Q, 78)%nat; ((1 # 1)%Q, 79)%nat; ((1 # 1)%Q, 80)%nat; ((1 # 1)%Q, 81)%nat; ((1 # 1)%Q, 82)%nat; ((1 # 1)%Q, 83)%nat; ((1 # 1)%Q, 84)%nat; ((1 # 1)%Q, 85)%nat; ((1 # 1)%Q, 86)%nat; ((1 # 1)%Q, 87)%nat; ((1 # 1)%Q, 88)%nat; ((1 # 1)%Q, 89)%nat; ((1 # 1)%Q, 90)%nat] (* mM41 *)].

(** Rate coefficients, src/equations/ideal_gas_mix/mechanism/AramcoMech_woC3H4_91spec.cpp:813-4514, and rates, :4516-5458, of the reactions; label, line of the coefficient and of the rate in comments *)
Definition aramco91_reactions : list (coefficient * list factor) :=
  [(Simple (Arr (104000000000 # 1) (0 # 1) (63956624 # 1)), [Conc 0; Conc 67]) (* r1f 813 4516 *);
   (Simple (Arr (3602380523377213 # 16777216) (1943431294636387 # 4503599627370496) ((-1767431372178883) # 268435456)), [Conc 1; Conc 44]) (* r1b 814 4517 *);
   (Simple (Arr (3574732204225331 # 70368744177664) (1503076375634903 # 562949953421312) (7066758800211969 # 268435456)), [Conc 44; Conc 21]) (* r2f 816 4518 *);
   (Simple (Arr (1049383715937969 # 35184372088832) (5937238627337513 # 2251799813685248) (5496092064362355 # 268435456)), [Conc 1; Conc 0]) (* r2b 818 4519 *);
   (Simple (Arr (43800000000 # 1) (0 # 1) (7850706295848961 # 268435456)), [Conc 1; Conc 21]) (* r3f 820 4520 *);
   (Simple (Arr (3882218354059385 # 8192) ((-57215772251959) # 562949953421312) (6175587556916839 # 67108864)), [Conc 45; Conc 0]) (* r3b 821 4521 *);
   (Simple (Arr (6531099068989439 # 2199023255552) (4548635623644201 # 2251799813685248) (7524997450956801 # 134217728)), [Conc 44; Conc 45]) (* r4f 823 4522 *);
   (Simple (Arr (5670366803259269 # 35184372088832) (1175607959362773 # 562949953421312) ((-1686157882876753) # 134217728)), [Conc 1; Conc 1]) (* r4b 825 4523 *);
   (Simple (Arr (45770000000000000 # 1) ((-3152519739159347) # 2251799813685248) (7328449010073601 # 16777216)), [Conc 21; Third 0]) (* r5f 827 4524 *);
   (Simple (Arr (6098446497671147 # 32) ((-3933151530198337) # 2251799813685248) (61913201007003 # 16777216)), [Conc 0; Conc 0; Third 0]) (* r5b 829 4525 *);
   (Simple (Arr (6165000000 # 1) ((-1) # 2) (0 # 1)), [Conc 44; Conc 44; Third 1]) (* r6f 831 4526 *);
   (Simple (Arr (3368365367731823 # 8) ((-21750791223633) # 35184372088832) (8351847694316305 # 16777216)), [Conc 67; Third 1]) (* r6b 832 4527 *);
   (Simple (Arr (4714000000000 # 1) ((-1) # 1) (0 # 1)), [Conc 44; Conc 0; Third 2]) (* r7f 834 4528 *);
   (Simple (Arr (664694452791023 # 1) ((-12079960139359) # 17592186044416) (7168369138076273 # 16777216)), [Conc 1; Third 2]) (* r7b 835 4529 *);
   (Simple (Arr (35000000000000000 # 1) ((-2) # 1) (0 # 1)), [Conc 0; Conc 1; Third 3]) (* r8f 837 4530 *);
   (Simple (Arr (90948516901420974080 # 1) ((-123494716416527) # 70368744177664) (4159881777402755 # 8388608)), [Conc 45; Third 3]) (* r8b 838 4531 *);
   (Falloff (Arr (17370000000000 # 1) ((-2769713770832855) # 2251799813685248) (0 # 1)) (Arr (4650000000 # 1) (7926335344172073 # 18014398509481984) (0 # 1)) [Decay (2972375754064527 # 9007199254740992) (178405961588245 # 178405961588244985132285746181186892047843328); Decay (6034823500676465 # 9007199254740992) (1000000000000000019884624838656 # 1); Grow (1 # 1) (1000000000000000019884624838656 # 1)] 4, [Conc 0; Conc 67]) (* r9f 845 4532 *);
   (Falloff (Arr (25502656776794068 # 1) ((-350249940514747) # 281474976710656) (1719177436586235 # 8388608)) (Arr (3495493681876299 # 512) (7668049317891105 # 18014398509481984) (1719177436586235 # 8388608)) [Decay (2972375754064527 # 9007199254740992) (178405961588245 # 178405961588244985132285746181186892047843328); Decay (6034823500676465 # 9007199254740992) (1000000000000000019884624838656 # 1); Grow (1 # 1) (1000000000000000019884624838656 # 1)] 4, [Conc 2]) (* r9b 850 4533 *);
   (Falloff (Arr (6810000000000 # 1) ((-5404319552844595) # 4503599627370496) (0 # 1)) (Arr (4650000000 # 1) (7926335344172073 # 18014398509481984) (0 # 1)) [Decay (1351079888211149 # 4503599627370496) (178405961588245 # 178405961588244985132285746181186892047843328); Decay (3152519739159347 # 4503599627370496) (1000000000000000019884624838656 # 1); Grow (1 # 1) (1000000000000000019884624838656 # 1)] 5, [Conc 0; Conc 67]) (* r10f 856 4534 *);
   (Falloff (Arr (9998450929762042 # 1) ((-85451422803357) # 70368744177664) (859588718293117 # 4194304)) (Arr (6990987363752561 # 1024) (7668049317891061 # 18014398509481984) (859588718293117 # 4194304)) [Decay (1351079888211149 # 4503599627370496) (178405961588245 # 178405961588244985132285746181186892047843328); Decay (3152519739159347 # 4503599627370496) (1000000000000000019884624838656 # 1); Grow (1 # 1) (1000000000000000019884624838656 # 1)] 5, [Conc 2]) (* r10b 861 4535 *);
   (Falloff (Arr (9192000000000 # 1) ((-5404319552844595) # 4503599627370496) (0 # 1)) (Arr (4650000000 # 1) (7926335344172073 # 18014398509481984) (0 # 1)) [Decay (3692951694443807 # 9007199254740992) (178405961588245 # 178405961588244985132285746181186892047843328); Decay (5314247560297185 # 9007199254740992) (1000000000000000019884624838656 # 1); Grow (1 # 1) (1000000000000000019884624838656 # 1)] 6, [Conc 0; Conc 67]) (* r11f 867 4536 *);
   (Falloff (Arr (13495706453216908 # 1) ((-341805691213441) # 281474976710656) (1719177436586237 # 8388608)) (Arr (3495493681877591 # 512) (7668049317890229 # 18014398509481984) (1719177436586237 # 8388608)) [Decay (3692951694443807 # 9007199254740992) (178405961588245 # 178405961588244985132285746181186892047843328); Decay (5314247560297185 # 9007199254740992) (1000000000000000019884624838656 # 1); Grow (1 # 1) (1000000000000000019884624838656 # 1)] 6, [Conc 2]) (* r11b 872 4537 *);
   (Simple (Arr (70790000000 # 1) (0 # 1) (1234280 # 1)), [Conc 2; Conc 0]) (* r12f 873 4538 *);
   (Simple (Arr (7535724382316935 # 536870912) (106847894778059 # 140737488355328) (2567243490828285 # 16777216)), [Conc 1; Conc 1]) (* r12b 874 4539 *);
   (Simple (Arr (1138214437073715 # 2199023255552) (342414309168513 # 140737488355328) (7511239060094977 # 33554432)), [Conc 21; Conc 67]) (* r13f 876 4540 *);
   (Simple (Arr (869777237548235 # 274877906944) (583213925295837 # 281474976710656) ((-1160982493548563) # 268435456)), [Conc 2; Conc 0]) (* r13b 878 4541 *);
   (Simple (Arr (32500000000 # 1) (0 # 1) (0 # 1)), [Conc 2; Conc 44]) (* r14f 880 4542 *);
   (Simple (Arr (6545760913853271 # 2097152) (46115666820767 # 140737488355328) (7460028529807629 # 33554432)), [Conc 67; Conc 1]) (* r14b 881 4543 *);
   (Simple (Arr (24560000000 # 1) (0 # 1) ((-8931161153732609) # 4294967296)), [Conc 2; Conc 1]) (* r15f 883 4544 *);
   (Simple (Arr (1424361632989435 # 32768) (285182839515 # 1099511627776) (4846521333376281 # 16777216)), [Conc 67; Conc 45]) (* r15b 884 4545 *);
   (Simple (Arr (130000000 # 1) (0 # 1) ((-7322833340334081) # 1073741824)), [Conc 2; Conc 2]) (* r16f 886 4546 *);
   (Simple (Arr (3218022807704807 # 524288) ((-68656332551965) # 281474976710656) (5175194842970279 # 33554432)), [Conc 67; Conc 23]) (* r16b 887 4547 *);
   (Simple (Arr (365800000000 # 1) (0 # 1) (6738803687424001 # 134217728)), [Conc 2; Conc 2]) (* r17f 889 4548 *);
   (Simple (Arr (8842794043472889 # 512) ((-4291020784487) # 17592186044416) (7088734306711805 # 33554432)), [Conc 67; Conc 23]) (* r17b 890 4549 *);
   (Falloff (Arr (18649999999999999475712 # 1) ((-2589569785738035) # 1125899906842624) (6843957103296513 # 33554432)) (Arr (2000000000000 # 1) (8106479329266893 # 9007199254740992) (6843957103296513 # 33554432)) [Decay (2206763817411543 # 4503599627370496) (178405961588245 # 178405961588244985132285746181186892047843328); Decay (2296835809958953 # 4503599627370496) (1000000000000000019884624838656 # 1)] 7, [Conc 23]) (* r18f 898 4550 *);
   (Falloff (Arr (6828268177771133 # 128) ((-5776073682642741) # 4503599627370496) ((-5499433769220109) # 536870912)) (Arr (6290013621843331 # 1099511627776) (4317722562471423 # 2251799813685248) ((-1374858442305027) # 134217728)) [Decay (2206763817411543 # 4503599627370496) (178405961588245 # 178405961588244985132285746181186892047843328); Decay (2296835809958953 # 4503599627370496) (1000000000000000019884624838656 # 1)] 7, [Conc 1; Conc 1]) (* r18b 903 4551 *);
   (Falloff (Arr (2490000000000000000000 # 1) ((-2589569785738035) # 1125899906842624) (6843957103296513 # 33554432)) (Arr (2000000000000 # 1) (8106479329266893 # 9007199254740992) (6843957103296513 # 33554432)) [Decay (2567051787601183 # 4503599627370496) (178405961588245 # 178405961588244985132285746181186892047843328); Decay (7746191359077253 # 18014398509481984) (1000000000000000019884624838656 # 1)] 8, [Conc 23]) (* r19f 910 4552 *);
   (Falloff (Arr (7293249442420025 # 1024) ((-5776073682642465) # 4503599627370496) ((-5499433769220375) # 536870912)) (Arr (6290013621840209 # 1099511627776) (4317722562471561 # 2251799813685248) ((-5499433769220367) # 536870912)) [Decay (2567051787601183 # 4503599627370496) (178405961588245 # 178405961588244985132285746181186892047843328); Decay (7746191359077253 # 18014398509481984) (1000000000000000019884624838656 # 1)] 8, [Conc 1; Conc 1]) (* r19b 915 4553 *);
   (Simple (Arr (24100000000 # 1) (0 # 1) (4458841773178881 # 268435456)), [Conc 23; Conc 0]) (* r20f 916 4554 *);
   (Simple (Arr (6154832404203189 # 34359738368) (44419866127991 # 35184372088832) (5004605308692691 # 16777216)), [Conc 1; Conc 45]) (* r20b 917 4555 *);
   (Simple (Arr (21500000 # 1) (1 # 1) (6738803687424001 # 268435456)), [Conc 23; Conc 0]) (* r21f 919 4556 *);
   (Simple (Arr (2559402120020381 # 34359738368) (451746002304545 # 281474976710656) (3094678947861193 # 33554432)), [Conc 2; Conc 21]) (* r21b 920 4557 *);
   (Simple (Arr (5250168022630399 # 549755813888) (2 # 1) (4458841773178881 # 268435456)), [Conc 23; Conc 44]) (* r22f 922 4558 *);
   (Simple (Arr (683477460536865 # 35184372088832) (1447675239229671 # 562949953421312) (1306675183299647 # 16777216)), [Conc 2; Conc 1]) (* r22b 924 4559 *);
   (Simple (Arr (1740000000 # 1) (0 # 1) (5714505526935553 # 4294967296)), [Conc 23; Conc 1]) (* r23f 926 4560 *);
   (Simple (Arr (4377188575992619 # 67108864) (70831569733883 # 140737488355328) (1100857138209895 # 8388608)), [Conc 2; Conc 45]) (* r23b 927 4561 *);
   (Simple (Arr (75900000000 # 1) (0 # 1) (8164060667314177 # 268435456)), [Conc 23; Conc 1]) (* r24f 929 4562 *);
   (Simple (Arr (5966749513630749 # 2097152) (141663139467869 # 281474976710656) (1344822890456175 # 8388608)), [Conc 2; Conc 45]) (* r24b 930 4563 *);
   (Falloff (Arr (1173000000000000000 # 1) ((-3141260740090921) # 1125899906842624) (4707054375665665 # 268435456)) (Arr (13620000 # 1) (0 # 1) (9974656 # 1)) [Decay (1 # 1) (10000000 # 1); Grow (1 # 1) (10000000 # 1)] 9, [Conc 69; Conc 44]) (* r25f 937 4564 *);
   (Falloff (Arr (871578269184051622302449664 # 1) ((-263823218755677) # 70368744177664) (2316184448649937 # 4194304)) (Arr (10120115964438862 # 1) ((-1079910759999911) # 1125899906842624) (2284473463589585 # 4194304)) [Decay (1 # 1) (10000000 # 1); Grow (1 # 1) (10000000 # 1)] 9, [Conc 3]) (* r25b 942 4565 *);
   (Simple (Arr (1119000000 # 1) (0 # 1) (6696686164377601 # 33554432)), [Conc 69; Conc 67]) (* r26f 943 4566 *);
   (Simple (Arr (1558304454447799 # 128) ((-236708848565753) # 281474976710656) (7934084567986593 # 33554432)), [Conc 44; Conc 3]) (* r26b 944 4567 *);
   (Simple (Arr (4936367404063129 # 70368744177664) (2311472508747907 # 1125899906842624) ((-6391979924311245) # 4294967296)), [Conc 69; Conc 1]) (* r27f 946 4568 *);
   (Simple (Arr (3100940840571417 # 8388608) (54923705676503 # 70368744177664) (7108836345860115 # 67108864)), [Conc 0; Conc 3]) (* r27b 948 4569 *);
   (Simple (Arr (5757000000 # 1) ((-5980780305148019) # 9007199254740992) (5962493502632755 # 4294967296)), [Conc 69; Conc 1]) (* r28f 950 4570 *);
   (Simple (Arr (30336965293048132 # 1) ((-1090145378033647) # 562949953421312) (7301874993156107 # 67108864)), [Conc 0; Conc 3]) (* r28b 952 4571 *);
   (Simple (Arr (157 # 1) (4908923593833841 # 2251799813685248) (75060960 # 1)), [Conc 69; Conc 2]) (* r29f 954 4572 *);
   (Simple (Arr (5636488498746009 # 34359738368) (117284483576165 # 70368744177664) (2804013702897785 # 8388608)), [Conc 1; Conc 3]) (* r29b 956 4573 *);
   (Simple (Arr (570000000 # 1) (5944751508129055 # 9007199254740992) (62216080 # 1)), [Conc 47; Third 10]) (* r30f 958 4574 *);
   (Simple (Arr (954698814155099 # 17179869184) (552589506658349 # 562949953421312) ((-7940290882971559) # 2147483648)), [Conc 69; Conc 0; Third 10]) (* r30b 960 4575 *);
   (Simple (Arr (7580000000 # 1) (0 # 1) (1715440 # 1)), [Conc 47; Conc 67]) (* r31f 962 4576 *);
   (Simple (Arr (568848222970805 # 524288) (86485549539313 # 281474976710656) (4722578090461937 # 33554432)), [Conc 2; Conc 69]) (* r31b 963 4577 *);
   (Simple (Arr (73400000000 # 1) (0 # 1) (0 # 1)), [Conc 47; Conc 0]) (* r32f 965 4578 *);
   (Simple (Arr (7208407205392041 # 4194304) (47025060645297 # 70368744177664) (1540172418427591 # 4194304)), [Conc 21; Conc 69]) (* r32b 966 4579 *);
   (Simple (Arr (30200000000 # 1) (0 # 1) (0 # 1)), [Conc 47; Conc 44]) (* r33f 968 4580 *);
   (Simple (Arr (3482579139564287 # 8388608) (89358441590419 # 140737488355328) (3031261501359871 # 8388608)), [Conc 1; Conc 69]) (* r33b 969 4581 *);
   (Simple (Arr (30000000000 # 1) (0 # 1) (0 # 1)), [Conc 47; Conc 44]) (* r34f 971 4582 *);
   (Simple (Arr (8692832319342833 # 4) ((-89728210650059) # 140737488355328) (7864700760764115 # 16777216)), [Conc 0; Conc 3]) (* r34b 972 4583 *);
   (Simple (Arr (102000000000 # 1) (0 # 1) (0 # 1)), [Conc 47; Conc 1]) (* r35f 974 4584 *);
   (Simple (Arr (1693477201512933 # 65536) (19936544556895 # 35184372088832) (3606958709724487 # 8388608)), [Conc 45; Conc 69]) (* r35b 975 4585 *);
   (Simple (Arr (30000000000 # 1) (0 # 1) (0 # 1)), [Conc 47; Conc 2]) (* r36 977 4586 *);
   (Simple (Arr (3000000000 # 1) (0 # 1) (0 # 1)), [Conc 47; Conc 47]) (* r37 978 4587 *);
   (Simple (Arr (26500000000 # 1) (0 # 1) (0 # 1)), [Conc 47; Conc 51]) (* r38f 979 4588 *);
   (Simple (Arr (4598003465545393 # 4096) (21338971300239 # 140737488355328) (394365448106665 # 1048576)), [Conc 69; Conc 28]) (* r38b 980 4589 *);
   (Simple (Arr (8070000000000 # 1) (0 # 1) (7499726937128961 # 33554432)), [Conc 24; Conc 67]) (* r39f 982 4590 *);
   (Simple (Arr (5807807557701433 # 32768) ((-1027167324983) # 70368744177664) (490395234549377 # 8388608)), [Conc 2; Conc 47]) (* r39b 983 4591 *);
   (Simple (Arr (120000000 # 1) (0 # 1) ((-4941789370777601) # 1073741824)), [Conc 47; Conc 67]) (* r40f 985 4592 *);
   (Simple (Arr (15514809778454812 # 1) ((-334065150591279) # 281474976710656) (2869905770701029 # 16777216)), [Conc 25]) (* r40b 986 4593 *);
   (Simple (Arr (1990000000 # 1) (0 # 1) (48785440 # 1)), [Conc 24; Conc 25]) (* r41f 988 4594 *);
   (Simple (Arr (6377677263828265 # 8192) ((-1122849418598937) # 1125899906842624) (420909929838693 # 8388608)), [Conc 70; Conc 47]) (* r41b 989 4595 *);
   (Simple (Arr (20000000000 # 1) (0 # 1) (0 # 1)), [Conc 71; Conc 1]) (* r42f 991 4596 *);
   (Simple (Arr (2985148087296451411968 # 1) ((-568023725312547) # 281474976710656) (1634762136741225 # 8388608)), [Conc 70]) (* r42b 992 4597 *);
   (Simple (Arr (75000000000 # 1) (0 # 1) (8142721122304001 # 67108864)), [Conc 0; Conc 3]) (* r43f 994 4598 *);
   (Simple (Arr (5816483760213225 # 512) (22622271194539 # 562949953421312) (315704724992411 # 4194304)), [Conc 71]) (* r43b 995 4599 *);
   (Simple (Arr (18000000000 # 1) (0 # 1) (0 # 1)), [Conc 47; Conc 47]) (* r44f 997 4600 *);
   (Simple (Arr (7688134462398011 # 65536) (22648554709985 # 70368744177664) (1275395434320453 # 4194304)), [Conc 69; Conc 24]) (* r44b 998 4601 *);
   (Simple (Arr (5930000000 # 1) (1 # 2) ((-7727161561579521) # 2147483648)), [Conc 22; Conc 45]) (* r45f 1000 4602 *);
   (Simple (Arr (2630949874962129 # 524288) (36923687949615 # 70368744177664) (6442827977928115 # 16777216)), [Conc 45; Conc 1]) (* r45b 1002 4603 *);
   (Simple (Arr (2950000000 # 1) (1 # 2) ((-1857696) # 1)), [Conc 22; Conc 21]) (* r46f 1004 4604 *);
   (Simple (Arr (5235279683733361 # 2097152) (73847375899247 # 140737488355328) (6472029460573613 # 16777216)), [Conc 21; Conc 1]) (* r46b 1005 4605 *);
   (Simple (Arr (108000000 # 1) (1 # 2) ((-5196528) # 1)), [Conc 22; Conc 68]) (* r47f 1007 4606 *);
   (Simple (Arr (6133263249823249 # 67108864) (18461843974809 # 35184372088832) (6416013154921899 # 16777216)), [Conc 68; Conc 1]) (* r47b 1008 4607 *);
   (Simple (Arr (6010000000 # 1) (1 # 2) ((-6864594689589249) # 2147483648)), [Conc 22; Conc 1]) (* r48f 1010 4608 *);
   (Simple (Arr (166652706034437 # 32768) (18461843974801 # 35184372088832) (806195847701945 # 2097152)), [Conc 1; Conc 1]) (* r48b 1012 4609 *);
   (Simple (Arr (1310000000 # 1) (1 # 2) ((-6002027817598977) # 8589934592)), [Conc 22; Conc 0]) (* r49f 1014 4610 *);
   (Simple (Arr (4649638227591027 # 4194304) (36923687949617 # 70368744177664) (811434214630839 # 2097152)), [Conc 0; Conc 1]) (* r49b 1015 4611 *);
   (Simple (Arr (1690000000 # 1) (0 # 1) (17300840 # 1)), [Conc 22; Conc 46]) (* r50f 1017 4612 *);
   (Simple (Arr (5998388247822345 # 4194304) (1739315860799 # 70368744177664) (3396728178644707 # 8388608)), [Conc 46; Conc 1]) (* r50b 1018 4613 *);
   (Simple (Arr (1450000 # 1) (0 # 1) (0 # 1)), [Conc 22]) (* r51f 1020 4614 *);
   (Simple (Arr (5270063236889343 # 4294967296) (1739315860789 # 70368744177664) (406449776726747 # 1048576)), [Conc 1]) (* r51b 1021 4615 *);
   (Simple (Arr (2100000000 # 1) (1 # 2) ((-8589728433569793) # 4294967296)), [Conc 22; Conc 67]) (* r52f 1023 4616 *);
   (Simple (Arr (7453618532771879 # 4194304) (4615460993703 # 8796093022208) (1617410700233577 # 4194304)), [Conc 67; Conc 1]) (* r52b 1024 4617 *);
   (Simple (Arr (2750000000 # 1) (1 # 2) ((-8697549292568577) # 2147483648)), [Conc 22; Conc 3]) (* r53f 1026 4618 *);
   (Simple (Arr (4880345467894271 # 2097152) (36923687949605 # 70368744177664) (6435246823779777 # 16777216)), [Conc 3; Conc 1]) (* r53b 1027 4619 *);
   (Simple (Arr (3230000000 # 1) (1 # 2) ((-3292808) # 1)), [Conc 22; Conc 69]) (* r54f 1029 4620 *);
   (Simple (Arr (5732187585920109 # 2097152) (73847375899235 # 140737488355328) (6447952276565423 # 16777216)), [Conc 69; Conc 1]) (* r54b 1030 4621 *);
   (Simple (Arr (3360000000 # 1) (1 # 2) ((-2656840) # 1)), [Conc 22; Conc 28]) (* r55f 1032 4622 *);
   (Simple (Arr (1490723706555757 # 524288) (73847375899229 # 140737488355328) (6458622049070521 # 16777216)), [Conc 28; Conc 1]) (* r55b 1033 4623 *);
   (Simple (Arr (40400000000 # 1) (0 # 1) (0 # 1)), [Conc 52; Conc 67]) (* r56f 1035 4624 *);
   (Simple (Arr (3467701518245031 # 524288) (50332992725931 # 140737488355328) (4691736621820995 # 16777216)), [Conc 22; Conc 69]) (* r56b 1036 4625 *);
   (Simple (Arr (6200000000 # 1) (0 # 1) (0 # 1)), [Conc 31; Conc 44]) (* r57f 1038 4626 *);
   (Simple (Arr (1634477554801289 # 134217728) (908642776062545 # 1125899906842624) (7084565249476393 # 134217728)), [Conc 75; Conc 69]) (* r57b 1039 4627 *);
   (Simple (Arr (600000000 # 1) (0 # 1) (29036960 # 1)), [Conc 29; Conc 0; Third 11]) (* r58f 1041 4628 *);
   (Simple (Arr (6808734577099397 # 8192) ((-3188902907585) # 70368744177664) (3012580393090767 # 33554432)), [Conc 75; Third 11]) (* r58b 1042 4629 *);
   (Simple (Arr (21700000 # 1) (0 # 1) (0 # 1)), [Conc 31; Conc 67]) (* r59f 1044 4630 *);
   (Simple (Arr (7779815081445103 # 16777216) ((-2387038637679) # 70368744177664) (6017079431955587 # 67108864)), [Conc 75; Conc 3]) (* r59b 1045 4631 *);
   (Simple (Arr (400000000 # 1) (1 # 2) (0 # 1)), [Conc 75; Conc 46]) (* r60f 1047 4632 *);
   (Simple (Arr (1140559051915607 # 8388608) (92545141869513 # 140737488355328) (2319465489500121 # 8388608)), [Conc 46; Conc 52]) (* r60b 1048 4633 *);
   (Simple (Arr (53000000000 # 1) (0 # 1) (0 # 1)), [Conc 75; Conc 45]) (* r61f 1050 4634 *);
   (Simple (Arr (590328415542205 # 32768) (22176397691849 # 140737488355328) (289933186187515 # 1048576)), [Conc 45; Conc 52]) (* r61b 1051 4635 *);
   (Simple (Arr (2440000000 # 1) (1 # 2) (0 # 1)), [Conc 75; Conc 69]) (* r62f 1053 4636 *);
   (Simple (Arr (3478705108340617 # 4194304) (5784071366845 # 8796093022208) (4638930979000237 # 16777216)), [Conc 69; Conc 52]) (* r62b 1054 4637 *);
   (Simple (Arr (2222832660882001 # 9223372036854775808) (4841369599423283 # 1125899906842624) ((-7087696) # 1)), [Conc 75; Conc 3]) (* r63f 1056 4638 *);
   (Simple (Arr (6044559269574913 # 73786976294838206464) (627347597619737 # 140737488355328) (565002396533239 # 2097152)), [Conc 3; Conc 52]) (* r63b 1058 4639 *);
   (Simple (Arr (2480 # 1) (4818851601286431 # 2251799813685248) ((-7727161561579521) # 1073741824)), [Conc 75; Conc 67]) (* r64f 1060 4640 *);
   (Simple (Arr (7414969660213685 # 8796093022208) (80838655693055 # 35184372088832) (1129548519900143 # 4194304)), [Conc 67; Conc 52]) (* r64b 1062 4641 *);
   (Simple (Arr (147000000000 # 1) (0 # 1) (6114341212389377 # 1073741824)), [Conc 75; Conc 21]) (* r65f 1064 4642 *);
   (Simple (Arr (6549303930923899 # 131072) (22176397691863 # 140737488355328) (4734467560443827 # 16777216)), [Conc 21; Conc 52]) (* r65b 1065 4643 *);
   (Simple (Arr (17300000000 # 1) (0 # 1) (6002027817598977 # 8589934592)), [Conc 75; Conc 28]) (* r66f 1067 4644 *);
   (Simple (Arr (6166147374421495 # 1048576) (22176397691843 # 140737488355328) (4650653689581499 # 16777216)), [Conc 28; Conc 52]) (* r66b 1068 4645 *);
   (Simple (Arr (1860000 # 1) (0 # 1) (0 # 1)), [Conc 75]) (* r67f 1070 4646 *);
   (Simple (Arr (5430885981595457 # 8589934592) (11088198845933 # 70368744177664) (1159732744750057 # 4194304)), [Conc 52]) (* r67b 1071 4647 *);
   (Simple (Arr (5458362748373041 # 18014398509481984) (7656119366529843 # 2251799813685248) ((-6846624546422785) # 4294967296)), [Conc 75; Conc 68]) (* r68f 1073 4648 *);
   (Simple (Arr (927684462263293 # 9007199254740992) (500683858099963 # 140737488355328) (1153046587966445 # 4194304)), [Conc 68; Conc 52]) (* r68b 1075 4649 *);
   (Falloff (Arr (1350000000000000000 # 1) ((-5787125521171087) # 2251799813685248) (5962200 # 1)) (Arr (1090000000 # 1) (1080863910568919 # 2251799813685248) ((-4672237223280641) # 4294967296)) [Decay (244995819728955 # 1125899906842624) (271 # 1); Decay (880904087113669 # 1125899906842624) (2755 # 1); Grow (1 # 1) (6570 # 1)] 12, [Conc 47; Conc 0]) (* r69f 1084 4650 *);
   (Falloff (Arr (90246554122788469211136 # 1) ((-361658870003191) # 140737488355328) (788432123734195 # 2097152)) (Arr (4663407122670907 # 64) (540723755844475 # 1125899906842624) (773647118248115 # 2097152)) [Decay (244995819728955 # 1125899906842624) (271 # 1); Decay (880904087113669 # 1125899906842624) (2755 # 1); Grow (1 # 1) (6570 # 1)] 12, [Conc 24]) (* r69b 1089 4651 *);
   (Falloff (Arr (5070000000000000524288 # 1) ((-1925288840700887) # 562949953421312) (352912032 # 1)) (Arr (43000 # 1) (3 # 2) (333046400 # 1)) [Decay (612489549322387 # 9007199254740992) (197 # 1); Decay (8394709705418605 # 9007199254740992) (1540 # 1); Grow (1 # 1) (10300 # 1)] 13, [Conc 69; Conc 21]) (* r70f 1096 4652 *);
   (Falloff (Arr (14475096628250889687675174912 # 1) ((-575335856395253) # 140737488355328) (5967619588791137 # 16777216)) (Arr (4022832061444691 # 32768) (468370345251843 # 562949953421312) (5634329589750625 # 16777216)) [Decay (612489549322387 # 9007199254740992) (197 # 1); Decay (8394709705418605 # 9007199254740992) (1540 # 1); Grow (1 # 1) (10300 # 1)] 13, [Conc 24]) (* r70b 1101 4653 *);
   (Simple (Arr (78200 # 1) (1835216848153477 # 1125899906842624) ((-4739625260154881) # 1073741824)), [Conc 24; Conc 1]) (* r71f 1102 4654 *);
   (Simple (Arr (1671118708505665 # 549755813888) (527702349653541 # 281474976710656) (8153116149909021 # 67108864)), [Conc 45; Conc 47]) (* r71b 1104 4655 *);
   (Simple (Arr (57400 # 1) (4278419646001971 # 2251799813685248) (6154774034513921 # 536870912)), [Conc 24; Conc 0]) (* r72f 1106 4656 *);
   (Simple (Arr (3627826547734991 # 17592186044416) (1264616958983023 # 562949953421312) (5005778500028517 # 67108864)), [Conc 21; Conc 47]) (* r72b 1108 4657 *);
   (Simple (Arr (6260000 # 1) (2589569785738035 # 2251799813685248) (9455840 # 1)), [Conc 24; Conc 44]) (* r73f 1110 4658 *);
   (Simple (Arr (3629524939176013 # 274877906944) (411818887558171 # 281474976710656) (2239167871158771 # 33554432)), [Conc 1; Conc 47]) (* r73b 1112 4659 *);
   (Simple (Arr (5519611703305279 # 144115188075855872) (7566047373982433 # 2251799813685248) (18041408 # 1)), [Conc 24; Conc 51]) (* r74f 1114 4660 *);
   (Simple (Arr (8968988624877055 # 36028797018963968) (224459911377095 # 70368744177664) (6043800125539905 # 67108864)), [Conc 28; Conc 47]) (* r74b 1116 4661 *);
   (Simple (Arr (5291729562160333 # 281474976710656) (3039929748475085 # 1125899906842624) (48199680 # 1)), [Conc 24; Conc 2]) (* r75f 1118 4662 *);
   (Simple (Arr (1371836158087647 # 70368744177664) (1374434870532647 # 562949953421312) (92700016931613 # 2097152)), [Conc 23; Conc 47]) (* r75b 1120 4663 *);
   (Simple (Arr (4500000000000 # 1) ((-2476979795053773) # 2251799813685248) (0 # 1)), [Conc 24; Conc 1]) (* r76f 1122 4664 *);
   (Simple (Arr (2635463298615298490368 # 1) ((-1328646999021455) # 562949953421312) (906040298476193 # 8388608)), [Conc 72]) (* r76b 1123 4665 *);
   (Simple (Arr (100000000000000 # 1) (0 # 1) (8367347911884801 # 134217728)), [Conc 72]) (* r77f 1125 4666 *);
   (Simple (Arr (1132155757594841 # 2097152) (926163714997461 # 1125899906842624) (6019519034580871 # 134217728)), [Conc 0; Conc 48]) (* r77b 1126 4667 *);
   (Simple (Arr (2450000000000 # 1) (0 # 1) (253006480 # 1)), [Conc 48]) (* r78f 1128 4668 *);
   (Simple (Arr (807211949582513 # 274877906944) (282579502695767 # 281474976710656) (7465263847762285 # 33554432)), [Conc 45; Conc 69]) (* r78b 1129 4669 *);
   (Simple (Arr (2950000000 # 1) (0 # 1) (6811807394037761 # 33554432)), [Conc 48]) (* r79f 1131 4670 *);
   (Simple (Arr (1849113415983187 # 1073741824) ((-23492957829639) # 140737488355328) (7285482537692093 # 33554432)), [Conc 21; Conc 3]) (* r79b 1132 4671 *);
   (Simple (Arr (35000000 # 1) (0 # 1) ((-13702600) # 1)), [Conc 71; Conc 2]) (* r80f 1134 4672 *);
   (Simple (Arr (4345132632500957 # 67108864) (68644736552437 # 140737488355328) (8268626529424471 # 33554432)), [Conc 67; Conc 48]) (* r80b 1135 4673 *);
   (Simple (Arr (5761440929546239 # 2199023255552) (4638707616191611 # 2251799813685248) (8230325570240513 # 2147483648)), [Conc 48; Conc 1]) (* r81 1137 4674 *);
   (Simple (Arr (18500 # 1) (6800435437329449 # 4503599627370496) ((-4321819431534593) # 1073741824)), [Conc 48; Conc 1]) (* r82 1139 4675 *);
   (Simple (Arr (4240 # 1) (4728779608739021 # 2251799813685248) (20367712 # 1)), [Conc 48; Conc 0]) (* r83 1141 4676 *);
   (Simple (Arr (60300000000 # 1) ((-3152519739159347) # 9007199254740992) (12501792 # 1)), [Conc 48; Conc 0]) (* r84 1143 4677 *);
   (Simple (Arr (3771848557197643 # 9671406556917033397649408) (6530219459687219 # 1125899906842624) (4941789370777601 # 536870912)), [Conc 48; Conc 51]) (* r85 1145 4678 *);
   (Simple (Arr (2400000000 # 1) (0 # 1) (41840000 # 1)), [Conc 71; Conc 23]) (* r86f 1147 4679 *);
   (Simple (Arr (6310596133420075 # 67108864) (51486451414247 # 70368744177664) (2364146769686011 # 16777216)), [Conc 2; Conc 48]) (* r86b 1148 4680 *);
   (Simple (Arr (1000000000 # 1) (0 # 1) (49873280 # 1)), [Conc 48; Conc 2]) (* r87 1150 4681 *);
   (Simple (Arr (1770000000000000 # 1) ((-4278419646001971) # 2251799813685248) (12447400 # 1)), [Conc 48; Conc 44]) (* r88 1151 4682 *);
   (Simple (Arr (5600000000 # 1) (0 # 1) (56902400 # 1)), [Conc 24; Conc 71]) (* r89f 1153 4683 *);
   (Simple (Arr (3817260309839901 # 16777216) (133180803804447 # 281474976710656) (2549795600926407 # 16777216)), [Conc 47; Conc 48]) (* r89b 1154 4684 *);
   (Falloff (Arr (18670000000000000524288 # 1) ((-3) # 1) (6825004217925633 # 67108864)) (Arr (68000000000000 # 1) (0 # 1) (7348103854161921 # 67108864)) [Decay (900719925474099 # 9007199254740992) (2500 # 1); Decay (8106479329266893 # 9007199254740992) (1300 # 1); Grow (1 # 1) (999999999999999967336168804116691273849533185806555472917961779471295845921727862608739868455469056 # 1)] 14, [Conc 50]) (* r90f 1162 4685 *);
   (Falloff (Arr (10459181717281642 # 1) ((-594322602660315) # 281474976710656) (3145490260560065 # 268435456)) (Arr (5112957539615547 # 134217728) (250102327471653 # 281474976710656) (5237888805505219 # 268435456)) [Decay (900719925474099 # 9007199254740992) (2500 # 1); Decay (8106479329266893 # 9007199254740992) (1300 # 1); Grow (1 # 1) (999999999999999967336168804116691273849533185806555472917961779471295845921727862608739868455469056 # 1)] 14, [Conc 0; Conc 24]) (* r90b 1167 4686 *);
   (Simple (Arr (4657614897230345 # 10633823966279326983230456482242756608) (19 # 2) ((-23016184) # 1)), [Conc 50; Conc 67]) (* r91f 1168 4687 *);
   (Simple (Arr (7845714991253433 # 21778071482940061661655974875633165533184) (5840157774123663 # 562949953421312) (1542549469512245 # 16777216)), [Conc 2; Conc 24]) (* r91b 1170 4688 *);
   (Simple (Arr (662000000 # 1) (0 # 1) (9598096 # 1)), [Conc 24; Conc 50]) (* r92f 1172 4689 *);
   (Simple (Arr (1403610363273011 # 1073741824) (382769148187169 # 562949953421312) (1302879270493293 # 16777216)), [Conc 47; Conc 6]) (* r92b 1173 4690 *);
   (Simple (Arr (4150517416584649 # 288230376151711744) (6980579422424269 # 2251799813685248) (29016040 # 1)), [Conc 51; Conc 6]) (* r93f 1175 4691 *);
   (Simple (Arr (416925575254595 # 8796093022208) (2533086309880317 # 1125899906842624) (8851581796111207 # 268435456)), [Conc 50; Conc 28]) (* r93b 1177 4692 *);
   (Simple (Arr (12000000000 # 1) (0 # 1) (0 # 1)), [Conc 50; Conc 51]) (* r94f 1179 4693 *);
   (Simple (Arr (6125708732977775 # 2097152) (101129500685933 # 140737488355328) (5906035391866701 # 16777216)), [Conc 28; Conc 24]) (* r94b 1180 4694 *);
   (Simple (Arr (20000000000 # 1) (0 # 1) (0 # 1)), [Conc 50; Conc 0]) (* r95f 1182 4695 *);
   (Simple (Arr (5778630486612745 # 2147483648) (173840650676295 # 140737488355328) (5756877895870429 # 16777216)), [Conc 21; Conc 24]) (* r95b 1183 4696 *);
   (Simple (Arr (301000000 # 1) (0 # 1) (0 # 1)), [Conc 50; Conc 2]) (* r96f 1185 4697 *);
   (Simple (Arr (6275541644308573 # 536870912) (22176284469845 # 35184372088832) (2315356826201927 # 8388608)), [Conc 23; Conc 24]) (* r96b 1186 4698 *);
   (Falloff (Arr (127000000000000004848615424 # 1) ((-678354693872681) # 140737488355328) (7334064679813121 # 268435456)) (Arr (540000000 # 1) (8178536923304821 # 18014398509481984) (15062400 # 1)) [Decay (2533725150358641 # 9007199254740992) (103 # 1); Decay (6473474104382351 # 9007199254740992) (1291 # 1); Grow (1 # 1) (4160 # 1)] 15, [Conc 24; Conc 0]) (* r97f 1195 4699 *);
   (Falloff (Arr (995825162892825170593041088512 # 1) ((-2911416950466481) # 562949953421312) (1272621277949051 # 8388608)) (Arr (4335838441521391 # 1024) (1842595324080597 # 18014398509481984) (1169784325844091 # 8388608)) [Decay (2533725150358641 # 9007199254740992) (103 # 1); Decay (6473474104382351 # 9007199254740992) (1291 # 1); Grow (1 # 1) (4160 # 1)] 15, [Conc 27]) (* r97b 1200 4700 *);
   (Simple (Arr (1510000000000 # 1) ((-1) # 1) (0 # 1)), [Conc 27; Conc 67]) (* r98f 1201 4701 *);
   (Simple (Arr (4632368706929085 # 16384) ((-186511608383345) # 281474976710656) (1351491359762711 # 16777216)), [Conc 2; Conc 24]) (* r98b 1202 4702 *);
   (Simple (Arr (241000000000 # 1) (0 # 1) (20991128 # 1)), [Conc 27; Conc 67]) (* r99f 1204 4703 *);
   (Simple (Arr (5914706534427767 # 131072) (189926736654733 # 562949953421312) (1703664048302379 # 16777216)), [Conc 2; Conc 24]) (* r99b 1205 4704 *);
   (Simple (Arr (6000000000 # 1) (0 # 1) (0 # 1)), [Conc 27; Conc 0]) (* r100f 1207 4705 *);
   (Simple (Arr (1541606200145853 # 8388608) (98289030684599 # 140737488355328) (5179672295657143 # 16777216)), [Conc 21; Conc 24]) (* r100b 1208 4706 *);
   (Simple (Arr (12000000000 # 1) (0 # 1) (0 # 1)), [Conc 27; Conc 2]) (* r101f 1210 4707 *);
   (Simple (Arr (6952536173638179 # 65536) (3288379471923 # 35184372088832) (8107016104381135 # 33554432)), [Conc 23; Conc 24]) (* r101b 1211 4708 *);
   (Simple (Arr (180000000000 # 1) (0 # 1) (0 # 1)), [Conc 27; Conc 47]) (* r102f 1213 4709 *);
   (Simple (Arr (392852892519855 # 256) (49536018813969 # 140737488355328) (1030141089807149 # 4194304)), [Conc 24; Conc 24]) (* r102b 1214 4710 *);
   (Simple (Arr (24000000000 # 1) (0 # 1) (0 # 1)), [Conc 27; Conc 50]) (* r103f 1216 4711 *);
   (Simple (Arr (6778558198180439 # 16777216) (145228305860753 # 140737488355328) (2631207149970569 # 8388608)), [Conc 6; Conc 24]) (* r103b 1217 4712 *);
   (Simple (Arr (2710604025723617 # 281474976710656) (6530219459687219 # 2251799813685248) (7362143028510721 # 134217728)), [Conc 6; Conc 47]) (* r104f 1219 4713 *);
   (Simple (Arr (3014950194286205 # 140737488355328) (3103984393403507 # 1125899906842624) (1422494152258505 # 67108864)), [Conc 24; Conc 27]) (* r104b 1221 4714 *);
   (Simple (Arr (24000000000 # 1) (0 # 1) (0 # 1)), [Conc 1; Conc 27]) (* r105f 1223 4715 *);
   (Simple (Arr (4169935729777997 # 524288) (83985087621581 # 140737488355328) (1558225010348939 # 4194304)), [Conc 24; Conc 45]) (* r105b 1224 4716 *);
   (Simple (Arr (42000000000 # 1) (0 # 1) (0 # 1)), [Conc 44; Conc 27]) (* r106f 1226 4717 *);
   (Simple (Arr (6335666255689743 # 8388608) (93597350984423 # 140737488355328) (2540752812333263 # 8388608)), [Conc 24; Conc 1]) (* r106b 1227 4718 *);
   (Simple (Arr (3000000000 # 1) (0 # 1) (0 # 1)), [Conc 27; Conc 27]) (* r107f 1229 4719 *);
   (Simple (Arr (3013940001461479 # 262144) (34838342934533 # 70368744177664) (4685208699727849 # 16777216)), [Conc 6; Conc 24]) (* r107b 1230 4720 *);
   (Simple (Arr (10000000000 # 1) (0 # 1) (0 # 1)), [Conc 27; Conc 2]) (* r108f 1232 4721 *);
   (Simple (Arr (1213216328238651 # 8192) ((-21003074042467) # 140737488355328) (4543505584412859 # 33554432)), [Conc 1; Conc 72]) (* r108b 1233 4722 *);
   (Simple (Arr (150000000 # 1) (0 # 1) (49789600 # 1)), [Conc 24; Conc 2]) (* r109f 1235 4723 *);
   (Simple (Arr (13213060685091462709248 # 1) ((-820843980833069) # 281474976710656) (1994891004304563 # 33554432)), [Conc 49]) (* r109b 1236 4724 *);
   (Simple (Arr (300000000000 # 1) (0 # 1) (35982400 # 1)), [Conc 49]) (* r110f 1238 4725 *);
   (Simple (Arr (5459433756015939 # 33554432) (606443128190755 # 562949953421312) (7309378626682707 # 67108864)), [Conc 26]) (* r110b 1239 4726 *);
   (Simple (Arr (35000000 # 1) (0 # 1) ((-13702600) # 1)), [Conc 26; Conc 2]) (* r111f 1241 4727 *);
   (Simple (Arr (6870853257196329 # 32768) ((-260738482892989) # 281474976710656) (4794219632156811 # 33554432)), [Conc 67; Conc 5]) (* r111b 1242 4728 *);
   (Simple (Arr (10000000000 # 1) (0 # 1) (0 # 1)), [Conc 72; Conc 1]) (* r112f 1244 4729 *);
   (Simple (Arr (36185889147276587171840 # 1) ((-641391383218659) # 281474976710656) (6185029303334389 # 33554432)), [Conc 5]) (* r112b 1245 4730 *);
   (Falloff (Arr (15000000000000001060141952447820087689216 # 1) ((-7875669848364155) # 1125899906842624) (6878647903112397 # 16777216)) (Arr (2084000000000000000 # 1) ((-2769713770832855) # 4503599627370496) (6495968088712807 # 16777216)) [Decay (830238591305751 # 562949953421312) (35580 # 1); Decay ((-4276618206151023) # 9007199254740992) (1116 # 1); Grow (1 # 1) (9023 # 1)] 16, [Conc 6]) (* r113f 1254 4731 *);
   (Falloff (Arr (71389279891959675986154071523328 # 1) ((-1746486624449021) # 281474976710656) (5369174000215431 # 268435456)) (Arr (650009026209793 # 65536) (789179631439429 # 4503599627370496) ((-3014812120712097) # 1073741824)) [Decay (830238591305751 # 562949953421312) (35580 # 1); Decay ((-4276618206151023) # 9007199254740992) (1116 # 1); Grow (1 # 1) (9023 # 1)] 16, [Conc 1; Conc 51]) (* r113b 1260 4732 *);
   (Falloff (Arr (142999999999999979338718553597162586915209216 # 1) ((-2315694633398567) # 281474976710656) (6978670000760423 # 16777216)) (Arr (3121000000000000000 # 1) ((-2290080410517897) # 2251799813685248) (383723008 # 1)) [Decay ((-869757678035927) # 562949953421312) (3290 # 1); Decay (1432707631457239 # 562949953421312) (47320 # 1); Grow (1 # 1) (47110 # 1)] 17, [Conc 6]) (* r114f 1269 4733 *);
   (Falloff (Arr (24280711325751256648923949222068224 # 1) ((-1960389181247555) # 281474976710656) (2869157414050333 # 134217728)) (Arr (8890762986023525 # 16777216) (552363206690199 # 2251799813685248) ((-2915544553894455) # 268435456)) [Decay ((-869757678035927) # 562949953421312) (3290 # 1); Decay (1432707631457239 # 562949953421312) (47320 # 1); Grow (1 # 1) (47110 # 1)] 17, [Conc 45; Conc 8]) (* r114b 1275 4734 *);
   (Falloff (Arr (3389999999999999615786358332058685669376 # 1) ((-254875591411499) # 35184372088832) (1846683160595661 # 4194304)) (Arr (568966762523479 # 72057594037927936) (1418070932668285 # 281474976710656) (2964631388474573 # 8388608)) [Decay (2635661313174405 # 35184372088832) (37050 # 1); Decay ((-2600476941085573) # 35184372088832) (41500 # 1); Grow (1 # 1) (5220 # 1)] 18, [Conc 6]) (* r115f 1284 4735 *);
   (Falloff (Arr (112809817671629543019262233825771520 # 1) ((-4158718031081537) # 562949953421312) (4917283433962645 # 134217728)) (Arr (620417487889433 # 2361183241434822606848) (2755433296839017 # 562949953421312) ((-6742475489505341) # 134217728)) [Decay (2635661313174405 # 35184372088832) (37050 # 1); Decay ((-2600476941085573) # 35184372088832) (41500 # 1); Grow (1 # 1) (5220 # 1)] 18, [Conc 0; Conc 27]) (* r115b 1290 4736 *);
   (Simple (Arr (307 # 1) (2871044762448691 # 1125899906842624) (22760960 # 1)), [Conc 6; Conc 0]) (* r116f 1292 4737 *);
   (Simple (Arr (5524933131786771 # 2251799813685248) (3099943520973181 # 1125899906842624) (7010633105733395 # 134217728)), [Conc 21; Conc 27]) (* r116b 1294 4738 *);
   (Simple (Arr (7001690045677567 # 35184372088832) (5764607523034235 # 2251799813685248) (5784139831705601 # 134217728)), [Conc 6; Conc 0]) (* r117f 1296 4739 *);
   (Simple (Arr (3184703434096051 # 8796093022208) (1253394780054163 # 562949953421312) (2561101898716979 # 67108864)), [Conc 21; Conc 50]) (* r117b 1298 4740 *);
   (Simple (Arr (6825768185233407 # 17592186044416) (5 # 2) (6918505119088641 # 536870912)), [Conc 6; Conc 44]) (* r118f 1300 4741 *);
   (Simple (Arr (8199194246818181 # 4503599627370496) (3006115088029565 # 1125899906842624) (4900001679281637 # 134217728)), [Conc 1; Conc 27]) (* r118b 1302 4742 *);
   (Simple (Arr (2167357320672051 # 70368744177664) (5967269506265907 # 2251799813685248) ((-906032155774157) # 268435456)), [Conc 6; Conc 1]) (* r119f 1304 4743 *);
   (Simple (Arr (5997293062429211 # 2251799813685248) (774525491788225 # 281474976710656) (2982128663864067 # 33554432)), [Conc 45; Conc 27]) (* r119b 1306 4744 *);
   (Simple (Arr (5404319552844595 # 36028797018963968) (6822953435466301 # 2251799813685248) ((-6855609618006017) # 2147483648)), [Conc 6; Conc 1]) (* r120f 1308 4745 *);
   (Simple (Arr (6649102814995711 # 2251799813685248) (1460765485909773 # 562949953421312) (7335410330511717 # 134217728)), [Conc 45; Conc 50]) (* r120b 1310 4746 *);
   (Simple (Arr (20500000000 # 1) (0 # 1) (187861600 # 1)), [Conc 6; Conc 67]) (* r121f 1312 4747 *);
   (Simple (Arr (4200940905318113 # 4194304) ((-355120027281895) # 2251799813685248) ((-5821526357101041) # 536870912)), [Conc 2; Conc 27]) (* r121b 1313 4748 *);
   (Simple (Arr (6079859496950169 # 562949953421312) (2871044762448691 # 1125899906842624) (5913300235714561 # 134217728)), [Conc 6; Conc 2]) (* r122f 1315 4749 *);
   (Simple (Arr (7012489144266213 # 281474976710656) (1209429709299095 # 562949953421312) (3438780221666351 # 536870912)), [Conc 23; Conc 27]) (* r122b 1317 4750 *);
   (Simple (Arr (2298637249809901 # 72057594037927936) (1784551352345559 # 562949953421312) (8055116674367489 # 268435456)), [Conc 6; Conc 51]) (* r123f 1319 4751 *);
   (Simple (Arr (4154506567178591 # 9007199254740992) (1608156131646425 # 562949953421312) (4588263536294251 # 67108864)), [Conc 28; Conc 27]) (* r123b 1321 4752 *);
   (Simple (Arr (300000000 # 1) (0 # 1) (17045616 # 1)), [Conc 50; Conc 6]) (* r124f 1323 4753 *);
   (Simple (Arr (5659966771296879 # 4294967296) (604412959933703 # 1125899906842624) (1726367163396715 # 33554432)), [Conc 6; Conc 27]) (* r124b 1324 4754 *);
   (Simple (Arr (60300000000 # 1) (0 # 1) (0 # 1)), [Conc 50; Conc 50]) (* r125f 1326 4755 *);
   (Simple (Arr (4788022020170869 # 1073741824) (27597490731557 # 17592186044416) (5839619900154415 # 16777216)), [Conc 24; Conc 6]) (* r125b 1327 4756 *);
   (Falloff (Arr (2476999999999999730272698368 # 1) ((-2679641778285445) # 562949953421312) (5480893665771521 # 536870912)) (Arr (12700000000000 # 1) ((-5674535530486825) # 9007199254740992) (6882564832755713 # 4294967296)) [Decay (1954562238278795 # 9007199254740992) (74 # 1); Decay (7052637016462197 # 9007199254740992) (2941 # 1); Grow (1 # 1) (6964 # 1)] 19, [Conc 51; Conc 0]) (* r126f 1336 4757 *);
   (Falloff (Arr (1076261497753539729755452158771200 # 1) ((-693832107621091) # 140737488355328) (3793485616059277 # 8388608)) (Arr (5518175624331834368 # 1) ((-7205521965669529) # 9007199254740992) (3721289161970573 # 8388608)) [Decay (1954562238278795 # 9007199254740992) (74 # 1); Decay (7052637016462197 # 9007199254740992) (2941 # 1); Grow (1 # 1) (6964 # 1)] 19, [Conc 28]) (* r126b 1342 4758 *);
   (Simple (Arr (614 # 1) (5 # 2) (40112008 # 1)), [Conc 28; Conc 0]) (* r127f 1344 4759 *);
   (Simple (Arr (1528438683891391 # 4503599627370496) (849109741757471 # 281474976710656) (8380965222615759 # 268435456)), [Conc 21; Conc 51]) (* r127b 1345 4760 *);
   (Simple (Arr (4102497785557811 # 70368744177664) (5854679515581645 # 2251799813685248) (9162960 # 1)), [Conc 28; Conc 1]) (* r128f 1347 4761 *);
   (Simple (Arr (24534891111527 # 70368744177664) (848649353302375 # 281474976710656) (8462393670893767 # 134217728)), [Conc 45; Conc 51]) (* r128b 1349 4762 *);
   (Simple (Arr (1020000 # 1) (3 # 2) (35982400 # 1)), [Conc 28; Conc 44]) (* r129f 1351 4763 *);
   (Simple (Arr (5823185965618663 # 17592186044416) (2233005622585839 # 1125899906842624) (1425441320046127 # 67108864)), [Conc 1; Conc 51]) (* r129b 1352 4764 *);
   (Simple (Arr (2442752437885757 # 144115188075855872) (2105432825795707 # 562949953421312) (87905840 # 1)), [Conc 28; Conc 2]) (* r130f 1354 4765 *);
   (Simple (Arr (6235468592694399 # 2305843009213693952) (8222941498279915 # 2251799813685248) (3191896414058681 # 268435456)), [Conc 23; Conc 51]) (* r130b 1356 4766 *);
   (Simple (Arr (2460 # 1) (2 # 1) (34601680 # 1)), [Conc 28; Conc 74]) (* r131f 1358 4767 *);
   (Simple (Arr (786072396663167 # 1099511627776) (2222064566514439 # 1125899906842624) (7501126574367863 # 134217728)), [Conc 51; Conc 51]) (* r131b 1359 4768 *);
   (Plog [((1000 # 1), (Arr (493600000000 # 1) ((-669) # 1000) ((-1865230) # 1))); ((10000 # 1), (Arr (1207000000000 # 1) ((-389) # 500) ((-734710) # 1))); ((100000 # 1), (Arr (528200000000000 # 1) ((-759) # 500) (7414050 # 1))); ((1000000 # 1), (Arr (478800000000000000000 # 1) ((-631) # 200) (29300600 # 1))); ((10000000 # 1), (Arr (84330000000000000 # 1) ((-981) # 500) (34492900 # 1)))], [Conc 51; Conc 1]) (* r132f 1382 4769 *);
   (Plog [((1000 # 1), (Arr (17610000000 # 1) ((-39387) # 200000) ((-6451850) # 1))); ((10000 # 1), (Arr (43061700000 # 1) ((-61187) # 200000) ((-5321340) # 1))); ((100000 # 1), (Arr (18844400000000 # 1) ((-104593) # 100000) (2827420 # 1))); ((1000000 # 1), (Arr (17082000000000000000 # 1) ((-268293) # 100000) (24713900 # 1))); ((10000000 # 1), (Arr (3008610000000000 # 1) ((-148993) # 100000) (29906300 # 1)))], [Conc 45; Conc 8]) (* r132b 1405 4770 *);
   (Plog [((1000 # 1), (Arr (1751 # 5) (1441 # 1000) ((-13572900) # 1))); ((10000 # 1), (Arr (4427 # 5) (1327 # 1000) ((-12447400) # 1))); ((100000 # 1), (Arr (16500 # 1) (973 # 1000) ((-8409840) # 1))); ((1000000 # 1), (Arr (5374000 # 1) (287 # 1000) (1171520 # 1))); ((10000000 # 1), (Arr (9494000000000000 # 1) ((-2199) # 1000) (40873500 # 1)))], [Conc 51; Conc 1]) (* r133f 1428 4771 *);
   (Plog [((1000 # 1), (Arr (749987 # 10) (120579 # 100000) (281510000 # 1))); ((10000 # 1), (Arr (189617 # 1) (109179 # 100000) (282636000 # 1))); ((100000 # 1), (Arr (3533640 # 1) (147557 # 200000) (286673000 # 1))); ((1000000 # 1), (Arr (1150890000 # 1) (517853 # 10000000) (296255000 # 1))); ((10000000 # 1), (Arr (2033230000000000000 # 1) ((-243421) # 100000) (335957000 # 1)))], [Conc 21; Conc 24]) (* r133b 1451 4772 *);
   (Plog [((1000 # 1), (Arr (16210000 # 1) (193 # 200) (13447400 # 1))); ((10000 # 1), (Arr (18070000 # 1) (19 # 20) (13585400 # 1))); ((100000 # 1), (Arr (46860000 # 1) (833 # 1000) (14920100 # 1))); ((1000000 # 1), (Arr (15250000000 # 1) (67 # 500) (23601900 # 1))); ((10000000 # 1), (Arr (359000000000 # 1) ((-93) # 500) (35986600 # 1)))], [Conc 51; Conc 1]) (* r134f 1474 4773 *);
   (Plog [((1000 # 1), (Arr (113341000000 # 1) (313997 # 10000000) ((-201950) # 1))); ((10000 # 1), (Arr (126347000000 # 1) (163997 # 10000000) ((-638777) # 10))); ((100000 # 1), (Arr (327648000000 # 1) ((-503) # 5000) (1270820 # 1))); ((1000000 # 1), (Arr (106629000000000 # 1) ((-1999) # 2500) (9952620 # 1))); ((10000000 # 1), (Arr (2510150000000000 # 1) ((-2799) # 2500) (22337300 # 1)))], [Conc 0; Conc 27]) (* r134b 1497 4774 *);
   (Plog [((1000 # 1), (Arr (1186000 # 1) (127 # 125) (49957000 # 1))); ((10000 # 1), (Arr (1188000 # 1) (127 # 125) (49957000 # 1))); ((100000 # 1), (Arr (1230000 # 1) (1011 # 1000) (49998800 # 1))); ((1000000 # 1), (Arr (1798000 # 1) (193 # 200) (50459000 # 1))); ((10000000 # 1), (Arr (52420000 # 1) (551 # 1000) (54684900 # 1)))], [Conc 51; Conc 1]) (* r135f 1520 4775 *);
   (Plog [((1000 # 1), (Arr (1887810000000 # 1) ((-454427) # 1000000) (1903500 # 1))); ((10000 # 1), (Arr (1890990000000 # 1) ((-454427) # 1000000) (1903500 # 1))); ((100000 # 1), (Arr (1957840000000 # 1) ((-459427) # 1000000) (1945340 # 1))); ((1000000 # 1), (Arr (2861950000000 # 1) ((-505427) # 1000000) (2405580 # 1))); ((10000000 # 1), (Arr (83439100000000 # 1) ((-919427) # 1000000) (6631420 # 1)))], [Conc 50; Conc 0]) (* r135b 1543 4776 *);
   (Plog [((1000 # 1), (Arr (867400 # 1) (787 # 1000) ((-12744500) # 1))); ((10000 # 1), (Arr (3115000 # 1) (63 # 100) ((-11167100) # 1))); ((100000 # 1), (Arr (155700000 # 1) (39 # 250) ((-5723710) # 1))); ((1000000 # 1), (Arr (1704000000000000000 # 1) ((-2641) # 1000) (26827800 # 1))); ((10000000 # 1), (Arr (725000000000000000 # 1) ((-1201) # 500) (40329600 # 1)))], [Conc 51; Conc 1]) (* r136f 1566 4777 *);
   (Plog [((1000 # 1), (Arr (1000730000000000 # 1) ((-194061) # 100000) (82750300 # 1))); ((10000 # 1), (Arr (3593800000000000 # 1) ((-209761) # 100000) (84327700 # 1))); ((100000 # 1), (Arr (179632000000000000 # 1) ((-257161) # 100000) (89771000 # 1))); ((1000000 # 1), (Arr (1965920000000000000000000000 # 1) ((-536861) # 100000) (122323000 # 1))); ((10000000 # 1), (Arr (836438000000000000000000000 # 1) ((-512961) # 100000) (135824000 # 1)))], [Conc 21; Conc 4]) (* r136b 1589 4778 *);
   (Simple (Arr (20000000000 # 1) (0 # 1) (0 # 1)), [Conc 4; Conc 1]) (* r137f 1591 4779 *);
   (Simple (Arr (5077529506040799 # 35184372088832) (96305608603463 # 35184372088832) (5460874270077161 # 16777216)), [Conc 45; Conc 47]) (* r137b 1592 4780 *);
   (Simple (Arr (200000000000 # 1) (0 # 1) (0 # 1)), [Conc 4; Conc 0]) (* r138f 1594 4781 *);
   (Simple (Arr (637810678649905 # 17179869184) (701546731212499 # 281474976710656) (1674269293954997 # 8388608)), [Conc 0; Conc 24]) (* r138b 1595 4782 *);
   (Simple (Arr (50000000000 # 1) (0 # 1) (0 # 1)), [Conc 4; Conc 44]) (* r139 1597 4783 *);
   (Simple (Arr (30000000000 # 1) (0 # 1) (0 # 1)), [Conc 4; Conc 44]) (* r140 1598 4784 *);
   (Simple (Arr (5000000000 # 1) (0 # 1) (0 # 1)), [Conc 4; Conc 67]) (* r141 1599 4785 *);
   (Simple (Arr (30000000000 # 1) (0 # 1) (0 # 1)), [Conc 4; Conc 67]) (* r142f 1600 4786 *);
   (Simple (Arr (2224795825061039 # 68719476736) (178113225860559 # 70368744177664) (758881029662577 # 1048576)), [Conc 45; Conc 3]) (* r142b 1601 4787 *);
   (Simple (Arr (1000000000 # 1) (2422936599525327 # 9007199254740992) ((-2876500) # 1)), [Conc 51; Conc 2]) (* r143f 1603 4788 *);
   (Simple (Arr (161594238226979 # 512) ((-248951607166021) # 562949953421312) (6768291046352475 # 67108864)), [Conc 1; Conc 50]) (* r143b 1605 4789 *);
   (Simple (Arr (8162774324609023 # 70368744177664) (5021513584518103 # 2251799813685248) ((-12644048) # 1)), [Conc 51; Conc 2]) (* r144f 1607 4790 *);
   (Simple (Arr (2359087356462127 # 68719476736) (145970397781471 # 70368744177664) (1882603253740169 # 8388608)), [Conc 67; Conc 28]) (* r144b 1609 4791 *);
   (Simple (Arr (55400000000 # 1) (3602879701896397 # 72057594037927936) ((-569024) # 1)), [Conc 51; Conc 44]) (* r145f 1611 4792 *);
   (Simple (Arr (7132935213287793 # 1024) ((-30758335543261) # 140737488355328) (4842961301070941 # 16777216)), [Conc 0; Conc 24]) (* r145b 1613 4793 *);
   (Simple (Arr (7546000000 # 1) (0 # 1) (118490880 # 1)), [Conc 51; Conc 67]) (* r146f 1615 4794 *);
   (Simple (Arr (1587105573911839 # 64) ((-146211952979665) # 140737488355328) ((-7105551161472991) # 68719476736)), [Conc 44; Conc 50]) (* r146b 1616 4795 *);
   (Simple (Arr (6089731387333365 # 2305843009213693952) (7392658788328669 # 2251799813685248) (4551500323880961 # 134217728)), [Conc 51; Conc 67]) (* r147f 1618 4796 *);
   (Simple (Arr (6323434680828655 # 9223372036854775808) (30311137016679 # 8796093022208) (8475933847746507 # 33554432)), [Conc 1; Conc 24]) (* r147b 1620 4797 *);
   (Falloff (Arr (6850000000000000000 # 1) ((-3) # 1) (0 # 1)) (Arr (7812000 # 1) (8106479329266893 # 9007199254740992) (0 # 1)) [Decay (3602879701896397 # 9007199254740992) (1000 # 1); Decay (5404319552844595 # 9007199254740992) (70 # 1); Grow (1 # 1) (1700 # 1)] 20, [Conc 51; Conc 67]) (* r148f 1627 4798 *);
   (Falloff (Arr (4177353477239849292633473024 # 1) ((-1168236062801637) # 281474976710656) (2330925163105167 # 16777216)) (Arr (4764012461926672 # 1) ((-2255476916162515) # 9007199254740992) (2330925163105167 # 16777216)) [Decay (3602879701896397 # 9007199254740992) (1000 # 1); Decay (5404319552844595 # 9007199254740992) (70 # 1); Grow (1 # 1) (1700 # 1)] 20, [Conc 7]) (* r148b 1633 4799 *);
   (Simple (Arr (1990000000 # 1) (0 # 1) (48785440 # 1)), [Conc 7; Conc 24]) (* r149f 1635 4800 *);
   (Simple (Arr (6599317425339159 # 131072) ((-232489709765959) # 281474976710656) (4691510808498633 # 134217728)), [Conc 47; Conc 73]) (* r149b 1636 4801 *);
   (Simple (Arr (1106804644422573 # 1152921504606846976) (8489285297593385 # 2251799813685248) (5000753903042561 # 67108864)), [Conc 28; Conc 7]) (* r150f 1638 4802 *);
   (Simple (Arr (8616721302364009 # 2305843009213693952) (1753174457345519 # 562949953421312) ((-6083903044380173) # 536870912)), [Conc 73; Conc 51]) (* r150b 1640 4803 *);
   (Simple (Arr (1810000000 # 1) (0 # 1) (7699083212881921 # 134217728)), [Conc 6; Conc 7]) (* r151f 1642 4804 *);
   (Simple (Arr (1669085516701421 # 16384) ((-4364336702017999) # 4503599627370496) (331392095276557 # 33554432)), [Conc 73; Conc 27]) (* r151b 1643 4805 *);
   (Simple (Arr (5080000000 # 1) (0 # 1) ((-6338968001970177) # 1073741824)), [Conc 7; Conc 51]) (* r152f 1645 4806 *);
   (Simple (Arr (6291688668146929 # 1024) ((-73576380170861) # 70368744177664) (3885024946393901 # 33554432)), [Conc 50; Conc 50]) (* r152b 1646 4807 *);
   (Simple (Arr (247000000 # 1) (0 # 1) ((-6568880) # 1)), [Conc 7; Conc 2]) (* r153f 1648 4808 *);
   (Simple (Arr (582739119371349 # 2048) ((-228381040465499) # 281474976710656) (606705116838763 # 4194304)), [Conc 67; Conc 73]) (* r153b 1649 4809 *);
   (Simple (Arr (311000000000 # 1) ((-7250795400066499) # 4503599627370496) ((-4721655116988417) # 1073741824)), [Conc 7; Conc 7]) (* r154 1651 4810 *);
   (Simple (Arr (14000000000000 # 1) ((-7250795400066499) # 4503599627370496) (8356116572405761 # 1073741824)), [Conc 7; Conc 7]) (* r155 1653 4811 *);
   (Simple (Arr (96000000000 # 1) (0 # 1) (0 # 1)), [Conc 7; Conc 0]) (* r156f 1655 4812 *);
   (Simple (Arr (1223832530591453 # 16777216) (119582841190859 # 281474976710656) (1423881066739711 # 8388608)), [Conc 1; Conc 50]) (* r156b 1656 4813 *);
   (Simple (Arr (36000000000 # 1) (0 # 1) (0 # 1)), [Conc 7; Conc 44]) (* r157f 1658 4814 *);
   (Simple (Arr (6783705333869 # 512) ((-940807361865) # 140737488355328) (8062481379438875 # 33554432)), [Conc 67; Conc 50]) (* r157b 1659 4815 *);
   (Simple (Arr (60000000000 # 1) (0 # 1) (0 # 1)), [Conc 7; Conc 1]) (* r158f 1661 4816 *);
   (Simple (Arr (5419244879709943 # 262144) (12672536878615 # 35184372088832) (2106074682497027 # 8388608)), [Conc 67; Conc 6]) (* r158b 1662 4817 *);
   (Simple (Arr (631000000000000 # 1) (0 # 1) (176983200 # 1)), [Conc 73]) (* r159f 1664 4818 *);
   (Simple (Arr (2435102265735469 # 8589934592) (5631993613080375 # 4503599627370496) ((-5066731229275401) # 536870912)), [Conc 1; Conc 50]) (* r159b 1665 4819 *);
   (Simple (Arr (15000000000 # 1) (0 # 1) (2510400 # 1)), [Conc 8; Conc 68]) (* r160f 1667 4820 *);
   (Simple (Arr (4536132354392913 # 524288) ((-34505555446189) # 1125899906842624) (5328140849767147 # 134217728)), [Conc 68; Conc 74]) (* r160b 1668 4821 *);
   (Simple (Arr (9000000000 # 1) (0 # 1) (2510400 # 1)), [Conc 8; Conc 46]) (* r161f 1670 4822 *);
   (Simple (Arr (5443358825269437 # 1048576) ((-34505555446133) # 1125899906842624) (83252200777611 # 2097152)), [Conc 46; Conc 74]) (* r161b 1671 4823 *);
   (Simple (Arr (30000000000 # 1) (0 # 1) (0 # 1)), [Conc 8; Conc 0]) (* r162f 1673 4824 *);
   (Simple (Arr (1503723984364391 # 1048576) (249498211139729 # 1125899906842624) (6592579885775215 # 134217728)), [Conc 21; Conc 52]) (* r162b 1674 4825 *);
   (Simple (Arr (15000000000 # 1) (0 # 1) (0 # 1)), [Conc 8; Conc 44]) (* r163f 1676 4826 *);
   (Simple (Arr (3153262940100877 # 65536) (3033334110331 # 17592186044416) (6601242045705441 # 8388608)), [Conc 21; Conc 69]) (* r163b 1677 4827 *);
   (Simple (Arr (15000000000 # 1) (0 # 1) (0 # 1)), [Conc 8; Conc 44]) (* r164f 1679 4828 *);
   (Simple (Arr (2104247718932835 # 1024) ((-69783448407907) # 140737488355328) (7041794417700487 # 16777216)), [Conc 0; Conc 47]) (* r164b 1680 4829 *);
   (Simple (Arr (30000000000 # 1) (0 # 1) (0 # 1)), [Conc 8; Conc 1]) (* r165f 1682 4830 *);
   (Simple (Arr (7793836286636419 # 4) ((-113844780578383) # 140737488355328) (3040426576131291 # 8388608)), [Conc 0; Conc 24]) (* r165b 1683 4831 *);
   (Simple (Arr (70000000000 # 1) (0 # 1) (0 # 1)), [Conc 8; Conc 21]) (* r166f 1685 4832 *);
   (Simple (Arr (1358658444265363 # 64) ((-322965001270111) # 562949953421312) (4520714166575349 # 67108864)), [Conc 0; Conc 51]) (* r166b 1686 4833 *);
   (Simple (Arr (28000000000 # 1) (0 # 1) (0 # 1)), [Conc 8; Conc 67]) (* r167 1688 4834 *);
   (Simple (Arr (12000000000 # 1) (0 # 1) (0 # 1)), [Conc 8; Conc 67]) (* r168f 1689 4835 *);
   (Simple (Arr (7212941307187937 # 8388608) (35347478888481 # 70368744177664) (6536116640454729 # 8388608)), [Conc 45; Conc 69]) (* r168b 1690 4836 *);
   (Simple (Arr (30000000000 # 1) (0 # 1) (0 # 1)), [Conc 8; Conc 45]) (* r169f 1692 4837 *);
   (Simple (Arr (2268066177195131 # 131072) ((-34505555446181) # 1125899906842624) (4991200665395901 # 134217728)), [Conc 45; Conc 74]) (* r169b 1693 4838 *);
   (Simple (Arr (9000000000 # 1) (0 # 1) (0 # 1)), [Conc 8; Conc 69]) (* r170f 1695 4839 *);
   (Simple (Arr (5443358825267657 # 1048576) ((-17252777723081) # 562949953421312) (623900083174487 # 16777216)), [Conc 69; Conc 74]) (* r170b 1696 4840 *);
   (Simple (Arr (7000000000 # 1) (0 # 1) (0 # 1)), [Conc 8; Conc 3]) (* r171f 1698 4841 *);
   (Simple (Arr (8467447061527583 # 2097152) ((-17252777723083) # 562949953421312) (4991200665395895 # 134217728)), [Conc 3; Conc 74]) (* r171b 1699 4842 *);
   (Simple (Arr (14000000000 # 1) (0 # 1) (0 # 1)), [Conc 8; Conc 3]) (* r172f 1701 4843 *);
   (Simple (Arr (5789913225944325 # 33554432) (2038808489441 # 4398046511104) (8557350788436407 # 33554432)), [Conc 69; Conc 24]) (* r172b 1702 4844 *);
   (Falloff (Arr (3200000000000000000000 # 1) ((-7070651414971679) # 2251799813685248) (5525819023687681 # 1073741824)) (Arr (25000000000000 # 1) ((-3602879701896397) # 4503599627370496) (0 # 1)) [Decay (2882303761517117 # 9007199254740992) (78 # 1); Decay (6124895493223875 # 9007199254740992) (1995 # 1); Grow (1 # 1) (5590 # 1)] 21, [Conc 74; Conc 0]) (* r173f 1710 4845 *);
   (Falloff (Arr (404081891295354777210191872 # 1) ((-234777141190933) # 70368744177664) (7859155189781381 # 16777216)) (Arr (3156889775744960000 # 1) ((-4487313908172751) # 4503599627370496) (7772814267536261 # 16777216)) [Decay (2882303761517117 # 9007199254740992) (78 # 1); Decay (6124895493223875 # 9007199254740992) (1995 # 1); Grow (1 # 1) (5590 # 1)] 21, [Conc 51]) (* r173b 1716 4846 *);
   (Simple (Arr (10600000000 # 1) (0 # 1) (6738803687424001 # 1073741824)), [Conc 74; Conc 67]) (* r174f 1718 4847 *);
   (Simple (Arr (5450335512000097 # 1048576) ((-2369013009927) # 70368744177664) (5339709585902013 # 16777216)), [Conc 1; Conc 47]) (* r174b 1719 4848 *);
   (Simple (Arr (2640000000 # 1) (0 # 1) (6738803687424001 # 1073741824)), [Conc 74; Conc 67]) (* r175 1721 4849 *);
   (Simple (Arr (50000000000 # 1) (0 # 1) (0 # 1)), [Conc 74; Conc 44]) (* r176 1722 4850 *);
   (Simple (Arr (1000000000000000 # 1) ((-3512807709348987) # 2251799813685248) (0 # 1)), [Conc 74; Conc 0]) (* r177f 1723 4851 *);
   (Simple (Arr (5303986275124863 # 64) ((-184050011011077) # 140737488355328) (6405516881517335 # 536870912)), [Conc 21; Conc 52]) (* r177b 1724 4852 *);
   (Simple (Arr (270000000 # 1) (6034823500676465 # 9007199254740992) (107528800 # 1)), [Conc 74; Conc 0]) (* r178f 1726 4853 *);
   (Simple (Arr (750820416187501 # 33554432) (32448647005369 # 35184372088832) (8016825225473153 # 67108864)), [Conc 21; Conc 52]) (* r178b 1728 4854 *);
   (Simple (Arr (6212240696934399 # 549755813888) (2 # 1) (6738803687424001 # 536870912)), [Conc 74; Conc 1]) (* r179f 1730 4855 *);
   (Simple (Arr (2785201373512199 # 274877906944) (302671504470881 # 140737488355328) (2927975527036099 # 33554432)), [Conc 45; Conc 52]) (* r179b 1732 4856 *);
   (Simple (Arr (33000000000 # 1) (0 # 1) (0 # 1)), [Conc 52; Conc 67]) (* r180f 1734 4857 *);
   (Simple (Arr (5448890957613871 # 16384) ((-4443352142867) # 17592186044416) (2566205023364611 # 8388608)), [Conc 44; Conc 47]) (* r180b 1735 4858 *);
   (Simple (Arr (50000000000 # 1) (0 # 1) (0 # 1)), [Conc 29; Conc 1]) (* r181f 1737 4859 *);
   (Simple (Arr (358527637319569 # 32) ((-17609909436785) # 70368744177664) (2717026073313725 # 4194304)), [Conc 0; Conc 69]) (* r181b 1738 4860 *);
   (Simple (Arr (50000000000 # 1) (0 # 1) (0 # 1)), [Conc 29; Conc 67]) (* r182f 1740 4861 *);
   (Simple (Arr (757982094258707 # 32768) (3189051135463 # 17592186044416) (605289108563431 # 1048576)), [Conc 44; Conc 69]) (* r182b 1741 4862 *);
   (Simple (Arr (110000000000 # 1) (0 # 1) (0 # 1)), [Conc 52; Conc 0]) (* r183f 1743 4863 *);
   (Simple (Arr (7353958752837543 # 131072) (16495447531989 # 70368744177664) (3216947966849331 # 33554432)), [Conc 21; Conc 29]) (* r183b 1744 4864 *);
   (Simple (Arr (57000000000 # 1) (0 # 1) (0 # 1)), [Conc 52; Conc 44]) (* r184f 1746 4865 *);
   (Simple (Arr (7833337637014909 # 2048) ((-3460301754895) # 70368744177664) (6189205802844479 # 8388608)), [Conc 0; Conc 69]) (* r184b 1747 4866 *);
   (Simple (Arr (30000000000 # 1) (0 # 1) (0 # 1)), [Conc 52; Conc 1]) (* r185f 1749 4867 *);
   (Simple (Arr (4686073759273377 # 32) ((-96279045100235) # 140737488355328) (789486075371155 # 2097152)), [Conc 0; Conc 47]) (* r185b 1750 4868 *);
   (Simple (Arr (17130000000 # 1) (0 # 1) ((-3158920) # 1)), [Conc 52; Conc 45]) (* r186f 1752 4869 *);
   (Simple (Arr (2151119478180992 # 1) ((-65364056953909) # 70368744177664) (4150555037635331 # 16777216)), [Conc 24; Conc 0]) (* r186b 1753 4870 *);
   (Simple (Arr (1700000000 # 1) (0 # 1) (6154774034513921 # 2147483648)), [Conc 52; Conc 3]) (* r187f 1755 4871 *);
   (Simple (Arr (6763488633229977 # 4294967296) (41403803570133 # 70368744177664) (4561795017069505 # 16777216)), [Conc 69; Conc 47]) (* r187b 1756 4872 *);
   (Falloff (Arr (80540000000000000377487360 # 1) ((-15) # 4) (8819746266100533 # 2147483648)) (Arr (2277000000000 # 1) ((-1553741871442821) # 2251799813685248) (6285956079629107 # 8589934592)) [Decay (1 # 1) (570 # 1); Grow (1 # 1) (1000000000000000019884624838656 # 1)] 22, [Conc 51; Conc 51]) (* r188f 1764 4873 *);
   (Falloff (Arr (13529222300010365690977843393714978816 # 1) ((-720470194994223) # 140737488355328) (6517183228087277 # 16777216)) (Arr (382493657525746279645184 # 1) ((-4637015690030709) # 2251799813685248) (201892381823481 # 524288)) [Decay (1 # 1) (570 # 1); Grow (1 # 1) (1000000000000000019884624838656 # 1)] 22, [Conc 9]) (* r188b 1770 4874 *);
   (Falloff (Arr (199000000000000016263126324682424320 # 1) ((-3985685670222889) # 562949953421312) (27970040 # 1)) (Arr (521000000000000 # 1) ((-4458563631096791) # 4503599627370496) (6610720 # 1)) [Decay (1423137482249077 # 9007199254740992) (125 # 1); Decay (7584061772491915 # 9007199254740992) (2219 # 1); Grow (1 # 1) (6882 # 1)] 23, [Conc 30; Conc 0]) (* r189f 1779 4875 *);
   (Falloff (Arr (202441948648690426320555028547773996728320 # 1) ((-127704382366389) # 17592186044416) (1895296746441603 # 4194304)) (Arr (530011332894310137856 # 1) ((-5265400155109263) # 4503599627370496) (1805709265128323 # 4194304)) [Decay (1423137482249077 # 9007199254740992) (125 # 1); Decay (7584061772491915 # 9007199254740992) (2219 # 1); Grow (1 # 1) (6882 # 1)] 23, [Conc 9]) (* r189b 1785 4876 *);
   (Simple (Arr (115000 # 1) (4278419646001971 # 2251799813685248) (31505520 # 1)), [Conc 9; Conc 0]) (* r190f 1787 4877 *);
   (Simple (Arr (238809662025583 # 8796093022208) (2731234849529733 # 1125899906842624) (5465465121131983 # 134217728)), [Conc 21; Conc 30]) (* r190b 1789 4878 *);
   (Simple (Arr (3550 # 1) (5404319552844595 # 2251799813685248) (24392720 # 1)), [Conc 9; Conc 44]) (* r191f 1791 4879 *);
   (Simple (Arr (554004356405359 # 1125899906842624) (1628325682674803 # 562949953421312) (3725467897488553 # 134217728)), [Conc 1; Conc 30]) (* r191b 1793 4880 *);
   (Simple (Arr (8136386045542399 # 549755813888) (4278419646001971 # 2251799813685248) (3974800 # 1)), [Conc 9; Conc 1]) (* r192f 1795 4881 *);
   (Simple (Arr (1330122575841003 # 35184372088832) (1308401652512605 # 562949953421312) (39828814056393 # 524288)), [Conc 45; Conc 30]) (* r192b 1797 4882 *);
   (Simple (Arr (60300000000 # 1) (0 # 1) (217024080 # 1)), [Conc 9; Conc 67]) (* r193f 1799 4883 *);
   (Simple (Arr (2920151467136285 # 33554432) (46391563590921 # 281474976710656) ((-8323287711709349) # 4294967296)), [Conc 2; Conc 30]) (* r193b 1800 4884 *);
   (Simple (Arr (5054407876196417 # 9223372036854775808) (4 # 1) (4649774544322561 # 134217728)), [Conc 9; Conc 51]) (* r194f 1802 4885 *);
   (Simple (Arr (4317622277007829 # 18446744073709551616) (4513935453976475 # 1125899906842624) (3539950159783085 # 67108864)), [Conc 28; Conc 30]) (* r194b 1804 4886 *);
   (Simple (Arr (4986385507424613 # 144115188075855872) (8128997327403745 # 2251799813685248) (4750856599633921 # 67108864)), [Conc 9; Conc 2]) (* r195f 1806 4887 *);
   (Simple (Arr (5436505818507675 # 2305843009213693952) (3975439587855823 # 1125899906842624) (1729265058808903 # 134217728)), [Conc 23; Conc 30]) (* r195b 1808 4888 *);
   (Simple (Arr (5591669297343207 # 288230376151711744) (8196551321814303 # 2251799813685248) (4801397627289601 # 67108864)), [Conc 9; Conc 7]) (* r196f 1810 4889 *);
   (Simple (Arr (2324164855863959 # 72057594037927936) (6740635506813957 # 2251799813685248) (8166999402279241 # 2147483648)), [Conc 73; Conc 30]) (* r196b 1812 4890 *);
   (Simple (Arr (241000000 # 1) (0 # 1) (29664560 # 1)), [Conc 9; Conc 50]) (* r197f 1814 4891 *);
   (Simple (Arr (67156034261743 # 2147483648) (120942403492255 # 140737488355328) (2940155843432497 # 67108864)), [Conc 6; Conc 30]) (* r197b 1815 4892 *);
   (Simple (Arr (110000000000 # 1) (0 # 1) ((-4672237223280641) # 4294967296)), [Conc 9; Conc 52]) (* r198f 1817 4893 *);
   (Simple (Arr (5257198841899107 # 16777216) (1232085039769989 # 4503599627370496) ((-4084166610669135) # 1073741824)), [Conc 74; Conc 30]) (* r198b 1818 4894 *);
   (Simple (Arr (120000000000 # 1) (0 # 1) (0 # 1)), [Conc 8; Conc 9]) (* r199f 1820 4895 *);
   (Simple (Arr (4504511313986989 # 524288) ((-6738122001469) # 140737488355328) (2569573535105957 # 33554432)), [Conc 30; Conc 51]) (* r199b 1821 4896 *);
   (Falloff (Arr (1418999999999999846101972714258432 # 1) ((-7478227181248709) # 1125899906842624) (6479359745458177 # 268435456)) (Arr (956900 # 1) (1647191563710759 # 1125899906842624) (5669320 # 1)) [Decay (1766536953836077 # 1125899906842624) (299 # 1); Decay ((-640637046993453) # 1125899906842624) ((-9147) # 1); Grow (1 # 1) (5362098306337997 # 35184372088832)] 24, [Conc 53; Conc 0]) (* r200f 1830 4897 *);
   (Falloff (Arr (2993822827100762516098198766828388352 # 1) ((-954597606748643) # 140737488355328) (5811362880205319 # 33554432)) (Arr (8467791562478603 # 4194304) (372159472742581 # 281474976710656) (5191673724449287 # 33554432)) [Decay (1766536953836077 # 1125899906842624) (299 # 1); Decay ((-640637046993453) # 1125899906842624) ((-9147) # 1); Grow (1 # 1) (5362098306337997 # 35184372088832)] 24, [Conc 30]) (* r200b 1836 4898 *);
   (Simple (Arr (150000000000 # 1) (0 # 1) (108909520 # 1)), [Conc 21; Conc 7]) (* r201f 1838 4899 *);
   (Simple (Arr (4225444999169691 # 4) ((-659991467014027) # 562949953421312) (8576729465521581 # 268435456)), [Conc 73; Conc 0]) (* r201b 1839 4900 *);
   (Simple (Arr (150000000000 # 1) (0 # 1) (108909520 # 1)), [Conc 21; Conc 36]) (* r202f 1841 4901 *);
   (Simple (Arr (4634930743584751 # 2048) ((-10350482290023) # 70368744177664) (1798282154039383 # 67108864)), [Conc 15; Conc 0]) (* r202b 1842 4902 *);
   (Simple (Arr (482000000000 # 1) (0 # 1) (299281520 # 1)), [Conc 53; Conc 53]) (* r203f 1844 4903 *);
   (Simple (Arr (6444694926688663 # 8388608) (285346871609129 # 2251799813685248) ((-8261112004797207) # 536870912)), [Conc 76; Conc 30]) (* r203b 1845 4904 *);
   (Simple (Arr (6642809450371481 # 562949953421312) (2758454771764429 # 1125899906842624) ((-6561348523655169) # 536870912)), [Conc 51; Conc 30]) (* r204f 1847 4905 *);
   (Simple (Arr (667989967744121 # 274877906944) (42588049064175 # 17592186044416) (2354964853843719 # 8388608)), [Conc 53; Conc 28]) (* r204b 1849 4906 *);
   (Plog [((1000 # 1), (Arr (4740000000 # 1) (21 # 200) (44619400 # 1))); ((10000 # 1), (Arr (25700000000 # 1) ((-12) # 125) (47723100 # 1))); ((100000 # 1), (Arr (310000000000 # 1) ((-181) # 500) (55950500 # 1))); ((1000000 # 1), (Arr (21500000 # 1) (177 # 200) (56620000 # 1))); ((10000000 # 1), (Arr (129 # 1250) (323 # 100) (47011800 # 1)))], [Conc 51; Conc 51]) (* r205f 1872 4907 *);
   (Plog [((1000 # 1), (Arr (782694000000000 # 1) ((-108509) # 100000) (5062890 # 1))); ((10000 # 1), (Arr (4243720000000000 # 1) ((-128609) # 100000) (8166580 # 1))); ((100000 # 1), (Arr (51188900000000000 # 1) ((-155209) # 100000) (16394000 # 1))); ((1000000 # 1), (Arr (3550200000000 # 1) ((-61019) # 200000) (17063400 # 1))); ((10000000 # 1), (Arr (170409 # 10) (203991 # 100000) (7455300 # 1)))], [Conc 30; Conc 0]) (* r205b 1895 4908 *);
   (Simple (Arr (2000000000 # 1) (0 # 1) (0 # 1)), [Conc 30; Conc 0]) (* r206f 1897 4909 *);
   (Simple (Arr (7639199642231361 # 33554432) (34304348016607 # 70368744177664) (4765814353055399 # 16777216)), [Conc 21; Conc 53]) (* r206b 1898 4910 *);
   (Simple (Arr (110000000000 # 1) (0 # 1) (0 # 1)), [Conc 30; Conc 44]) (* r207f 1900 4911 *);
   (Simple (Arr (951639294832775 # 8) ((-2255432710049) # 4398046511104) (2680737554704853 # 8388608)), [Conc 0; Conc 54]) (* r207b 1901 4912 *);
   (Simple (Arr (11000000000 # 1) (0 # 1) (0 # 1)), [Conc 30; Conc 2]) (* r208f 1903 4913 *);
   (Simple (Arr (2818270826840117 # 256) ((-455030665751095) # 562949953421312) (7417777526819649 # 67108864)), [Conc 1; Conc 14]) (* r208b 1904 4914 *);
   (Simple (Arr (8000000000 # 1) (0 # 1) ((-4184000) # 1)), [Conc 7; Conc 30]) (* r209f 1906 4915 *);
   (Simple (Arr (1963666270196921 # 64) ((-321628281240833) # 281474976710656) (8341899739106137 # 67108864)), [Conc 14; Conc 50]) (* r209b 1907 4916 *);
   (Simple (Arr (42800000 # 1) (0 # 1) (4589848 # 1)), [Conc 14; Conc 67]) (* r210f 1909 4917 *);
   (Simple (Arr (820180795956755 # 8589934592) (204632095347005 # 281474976710656) (4801114085535907 # 33554432)), [Conc 2; Conc 54]) (* r210b 1910 4918 *);
   (Simple (Arr (300000000 # 1) (0 # 1) (26509824 # 1)), [Conc 51; Conc 24]) (* r211f 1912 4919 *);
   (Simple (Arr (280398575566244708352 # 1) ((-1224814065202549) # 562949953421312) (5619529168339525 # 67108864)), [Conc 14]) (* r211b 1913 4920 *);
   (Simple (Arr (46100 # 1) (1925288840700887 # 1125899906842624) (29664560 # 1)), [Conc 54; Conc 0]) (* r212f 1915 4921 *);
   (Simple (Arr (7953357139445423 # 262144) (545308791335327 # 562949953421312) (806245716186339 # 8388608)), [Conc 14]) (* r212b 1917 4922 *);
   (Simple (Arr (1990000000 # 1) (0 # 1) (48785440 # 1)), [Conc 36; Conc 24]) (* r213f 1919 4923 *);
   (Simple (Arr (7238853949681209 # 67108864) (448832756647509 # 2251799813685248) (7999420767633399 # 268435456)), [Conc 47; Conc 15]) (* r213b 1920 4924 *);
   (Simple (Arr (181000000 # 1) (0 # 1) (77320320 # 1)), [Conc 28; Conc 36]) (* r214f 1922 4925 *);
   (Simple (Arr (6483064600639665 # 4294967296) (1664325933128135 # 4503599627370496) ((-459131578307293) # 33554432)), [Conc 15; Conc 51]) (* r214b 1923 4926 *);
   (Simple (Arr (1810000000 # 1) (0 # 1) (7699083212881921 # 134217728)), [Conc 6; Conc 36]) (* r215f 1925 4927 *);
   (Simple (Arr (1830835752577681 # 8388608) (506328335065641 # 9007199254740992) (633767956424191 # 134217728)), [Conc 15; Conc 27]) (* r215b 1926 4928 *);
   (Simple (Arr (17500000 # 1) (0 # 1) ((-13702600) # 1)), [Conc 36; Conc 2]) (* r216f 1928 4929 *);
   (Simple (Arr (362306438485789 # 8388608) (3763297742587 # 17592186044416) (8882645811785119 # 67108864)), [Conc 67; Conc 15]) (* r216b 1929 4930 *);
   (Simple (Arr (4957562469809441 # 576460752303423488) (2116691824864133 # 562949953421312) (71964800 # 1)), [Conc 9; Conc 36]) (* r217f 1931 4931 *);
   (Simple (Arr (2260291453794767 # 73786976294838206464) (1164950239903943 # 281474976710656) ((-8013200937238365) # 8589934592)), [Conc 15; Conc 30]) (* r217b 1933 4932 *);
   (Simple (Arr (631000000000000 # 1) (0 # 1) (176983200 # 1)), [Conc 15]) (* r218f 1935 4933 *);
   (Simple (Arr (1416473059963609 # 4294967296) (2323945627621755 # 2251799813685248) ((-6834162544967381) # 536870912)), [Conc 1; Conc 14]) (* r218b 1936 4934 *);
   (Plog [((4000 # 1), (Arr (339800000000000000000000000000000000000000000000000 # 1) ((-139) # 10) (38823300 # 1))); ((100000 # 1), (Arr (936200000000000000000000000000000000000000000000000000000 # 1) ((-382) # 25) (59580200 # 1))); ((1000000 # 1), (Arr (1262000000000000000000000000000000000000000000000000000000 # 1) ((-1491) # 100) (67948200 # 1)))], [Conc 30; Conc 67]) (* r219f 1951 4935 *);
   (Plog [((4000 # 1), (Arr (263637000000000000000000000000000000000000000000000000000000000 # 1) ((-159543) # 10000) (193005000 # 1))); ((100000 # 1), (Arr (726359000000000000000000000000000000000000000000000000000000000000000 # 1) ((-173343) # 10000) (213762000 # 1))); ((1000000 # 1), (Arr (979134000000000000000000000000000000000000000000000000000000000000000 # 1) ((-169643) # 10000) (222130000 # 1)))], [Conc 36]) (* r219b 1966 4936 *);
   (Plog [((4000 # 1), (Arr (21030000000000000000000000000000 # 1) ((-901) # 100) (22777700 # 1))); ((100000 # 1), (Arr (4884000000000000000000000000000 # 1) ((-831) # 100) (32258600 # 1))); ((1000000 # 1), (Arr (1705000000000000000000000000000000000000000 # 1) ((-1149) # 100) (61044600 # 1)))], [Conc 30; Conc 67]) (* r220f 1981 4937 *);
   (Plog [((4000 # 1), (Arr (9616580000000000000000000000000000000 # 1) ((-19439) # 2000) (91238400 # 1))); ((100000 # 1), (Arr (2233350000000000000000000000000000000 # 1) ((-18039) # 2000) (100719000 # 1))); ((1000000 # 1), (Arr (779661000000000000000000000000000000000000000000 # 1) ((-24399) # 2000) (129505000 # 1)))], [Conc 59]) (* r220b 1996 4938 *);
   (Plog [((4000 # 1), (Arr (2094000 # 1) (49 # 100) ((-1637620) # 1))); ((100000 # 1), (Arr (18430 # 1) (113 # 100) ((-3014990) # 1))); ((1000000 # 1), (Arr (756100000000 # 1) ((-101) # 100) (19869800 # 1)))], [Conc 30; Conc 67]) (* r221f 2011 4939 *);
   (Plog [((4000 # 1), (Arr (1457200 # 1) (308243 # 500000) (54249700 # 1))); ((100000 # 1), (Arr (128253 # 10) (125649 # 100000) (52872300 # 1))); ((1000000 # 1), (Arr (526164000000 # 1) ((-441757) # 500000) (75757100 # 1)))], [Conc 2; Conc 53]) (* r221b 2026 4940 *);
   (Simple (Arr (7619658223946651 # 1152921504606846976) (1975954336508805 # 562949953421312) (59245440 # 1)), [Conc 30; Conc 67]) (* r222f 2028 4941 *);
   (Simple (Arr (2651229989692905 # 576460752303423488) (1023579867279121 # 281474976710656) (1931606961056047 # 16777216)), [Conc 2; Conc 53]) (* r222b 2030 4942 *);
   (Plog [((4000 # 1), (Arr (1303 # 1000) (193 # 100) ((-2103300) # 1))); ((100000 # 1), (Arr (1219 # 5000) (109 # 50) ((-261500) # 1))); ((1000000 # 1), (Arr (4621000 # 1) (3 # 20) (22631300 # 1)))], [Conc 30; Conc 67]) (* r223f 2045 4943 *);
   (Plog [((4000 # 1), (Arr (376971 # 1000) (39451 # 25000) (135758000 # 1))); ((100000 # 1), (Arr (705339 # 10000) (45701 # 25000) (137599000 # 1))); ((1000000 # 1), (Arr (1336900000 # 1) ((-50489) # 250000) (160492000 # 1)))], [Conc 1; Conc 82]) (* r223b 2060 4944 *);
   (Plog [((4000 # 1), (Arr (1227 # 250000000000) (119 # 25) (1063990 # 1))); ((100000 # 1), (Arr (6803 # 100000000) (357 # 100) (11058300 # 1))); ((1000000 # 1), (Arr (1653 # 2000) (241 # 100) (22112400 # 1)))], [Conc 30; Conc 67]) (* r224f 2075 4945 *);
   (Plog [((4000 # 1), (Arr (5479 # 500000000000) (46787 # 10000) (250092000 # 1))); ((100000 # 1), (Arr (151889 # 1000000000) (34887 # 10000) (260086000 # 1))); ((1000000 # 1), (Arr (184531 # 100000) (23287 # 10000) (271140000 # 1)))], [Conc 1; Conc 54]) (* r224b 2090 4946 *);
   (Plog [((4000 # 1), (Arr (2653 # 10000000000000000000) (174 # 25) (10024900 # 1))); ((100000 # 1), (Arr (106400000000000000000000000000000000000000 # 1) ((-101) # 10) (108910000 # 1))); ((1000000 # 1), (Arr (1203000000000000000000000000000000000 # 1) ((-813) # 100) (113052000 # 1)))], [Conc 59]) (* r225f 2105 4947 *);
   (Plog [((4000 # 1), (Arr (450131 # 1000000000000000) (22461 # 4000) (95746200 # 1))); ((100000 # 1), (Arr (180527000000000000000000000000000000000000000000 # 1) ((-7153) # 625) (194631000 # 1))); ((1000000 # 1), (Arr (2041110000000000000000000000000000000000000 # 1) ((-37899) # 4000) (198773000 # 1)))], [Conc 36]) (* r225b 2120 4948 *);
   (Plog [((4000 # 1), (Arr (123700000000000000000000000000000000 # 1) ((-471) # 50) (152130000 # 1))); ((100000 # 1), (Arr (1687000000000000000000000000000000000 # 1) ((-461) # 50) (161921000 # 1))); ((1000000 # 1), (Arr (252000000000000000000000000000000000000000 # 1) ((-51) # 5) (182883000 # 1)))], [Conc 36]) (* r226f 2135 4949 *);
   (Plog [((4000 # 1), (Arr (355970000000000000000000 # 1) ((-23272) # 3125) (246976000 # 1))); ((100000 # 1), (Arr (4854650000000000000000000 # 1) ((-22647) # 3125) (256767000 # 1))); ((1000000 # 1), (Arr (725176000000000000000000000000 # 1) ((-51419) # 6250) (277729000 # 1)))], [Conc 1; Conc 54]) (* r226b 2150 4950 *);
   (Plog [((4000 # 1), (Arr (178200000000000000000000000000000 # 1) ((-71) # 10) (137403000 # 1))); ((100000 # 1), (Arr (27010000000000000000000000000000000000 # 1) ((-847) # 100) (149955000 # 1))); ((1000000 # 1), (Arr (198000000000000000000000000000000000000 # 1) ((-423) # 50) (158574000 # 1)))], [Conc 36]) (* r227f 2165 4951 *);
   (Plog [((4000 # 1), (Arr (159833000000000000000 # 1) ((-245963) # 50000) (39107900 # 1))); ((100000 # 1), (Arr (24226100000000000000000000 # 1) ((-314463) # 50000) (51659900 # 1))); ((1000000 # 1), (Arr (177592000000000000000000000 # 1) ((-313963) # 50000) (60278900 # 1)))], [Conc 2; Conc 53]) (* r227b 2180 4952 *);
   (Plog [((4000 # 1), (Arr (5778000000000000000000000000000000000000000000 # 1) ((-119) # 10) (17204600 # 1))); ((100000 # 1), (Arr (19160000000000000000000000000000000000000000 # 1) ((-43) # 4) (177402000 # 1))); ((1000000 # 1), (Arr (39650000000000000000000000000000000000000000 # 1) ((-523) # 50) (190707000 # 1)))], [Conc 36]) (* r228f 2195 4953 *);
   (Plog [((4000 # 1), (Arr (2154560000000000000000000000000000000 # 1) ((-101977) # 10000) (883563 # 1))); ((100000 # 1), (Arr (7144580000000000000000000000000000 # 1) ((-90477) # 10000) (161081000 # 1))); ((1000000 # 1), (Arr (14785100000000000000000000000000000 # 1) ((-87577) # 10000) (174386000 # 1)))], [Conc 1; Conc 82]) (* r228b 2210 4954 *);
   (Plog [((4000 # 1), (Arr (895900000000000000000000000000000000000 # 1) ((-47) # 5) (86441400 # 1))); ((100000 # 1), (Arr (12240000000000000000000000000000000000 # 1) ((-208) # 25) (89788600 # 1))); ((1000000 # 1), (Arr (8848000000000000000000000000000 # 1) ((-152) # 25) (86441400 # 1)))], [Conc 59]) (* r229f 2225 4955 *);
   (Plog [((4000 # 1), (Arr (566816000000000000000000000000000000 # 1) ((-452123) # 50000) (155842000 # 1))); ((100000 # 1), (Arr (7743980000000000000000000000000000 # 1) ((-398123) # 50000) (159189000 # 1))); ((1000000 # 1), (Arr (5597930000000000000000000000 # 1) ((-286123) # 50000) (155842000 # 1)))], [Conc 1; Conc 82]) (* r229b 2240 4956 *);
   (Plog [((4000 # 1), (Arr (39180000000000000000000000000000000000000 # 1) ((-51) # 5) (93094000 # 1))); ((100000 # 1), (Arr (68250000000000000000000000000000000000000 # 1) ((-961) # 100) (99746600 # 1))); ((1000000 # 1), (Arr (39800000000000000000000000000000000 # 1) ((-29) # 4) (97278000 # 1)))], [Conc 59]) (* r230f 2255 4957 *);
   (Plog [((4000 # 1), (Arr (59624500000000000000000000000000000 # 1) ((-936401) # 100000) (80520600 # 1))); ((100000 # 1), (Arr (103864000000000000000000000000000000 # 1) ((-877401) # 100000) (87173200 # 1))); ((1000000 # 1), (Arr (60568100000000000000000000000 # 1) ((-641401) # 100000) (84704600 # 1)))], [Conc 2; Conc 53]) (* r230b 2270 4958 *);
   (Plog [((4000 # 1), (Arr (581900000000000000000000000 # 1) ((-797) # 100) (87278200 # 1))); ((100000 # 1), (Arr (55200000000000000000000000000000000 # 1) ((-247) # 25) (109746000 # 1))); ((1000000 # 1), (Arr (11880000000000000000000000000000000 # 1) ((-451) # 50) (122215000 # 1)))], [Conc 59]) (* r231f 2285 4959 *);
   (Plog [((4000 # 1), (Arr (2841140000000000000000 # 1) ((-36709) # 5000) (267846000 # 1))); ((100000 # 1), (Arr (269516000000000000000000000000 # 1) ((-46259) # 5000) (290314000 # 1))); ((1000000 # 1), (Arr (58004400000000000000000000000 # 1) ((-41959) # 5000) (302782000 # 1)))], [Conc 1; Conc 54]) (* r231b 2300 4960 *);
   (Simple (Arr (36300000000000 # 1) (0 # 1) (8030407727513601 # 33554432)), [Conc 82]) (* r232f 2302 4961 *);
   (Simple (Arr (3322207044948727 # 1125899906842624) (3838798549793781 # 2251799813685248) ((-2759499372839029) # 268435456)), [Conc 47; Conc 51]) (* r232b 2303 4962 *);
   (Simple (Arr (7407000000000 # 1) (0 # 1) (225099200 # 1)), [Conc 82]) (* r233f 2305 4963 *);
   (Simple (Arr (3746142838579621 # 65536) (38091775385227 # 140737488355328) (1410402936228371 # 4194304)), [Conc 54]) (* r233b 2306 4964 *);
   (Simple (Arr (17800000000 # 1) (0 # 1) (8109027103866881 # 536870912)), [Conc 82; Conc 1]) (* r234f 2308 4965 *);
   (Simple (Arr (4116464522102727 # 67108864) (294320607989851 # 562949953421312) (1249190886188511 # 16777216)), [Conc 45; Conc 16]) (* r234b 2309 4966 *);
   (Simple (Arr (80000000000 # 1) (0 # 1) (40501120 # 1)), [Conc 82; Conc 0]) (* r235f 2311 4967 *);
   (Simple (Arr (1709930493047707 # 67108864) (351536380242095 # 562949953421312) (4976416655487941 # 134217728)), [Conc 21; Conc 16]) (* r235b 2312 4968 *);
   (Simple (Arr (11300000000 # 1) (0 # 1) (8544241508679681 # 67108864)), [Conc 82; Conc 2]) (* r236f 2314 4969 *);
   (Simple (Arr (8714183670999473 # 8388608) (21988658109999 # 1125899906842624) (3809808708629919 # 67108864)), [Conc 23; Conc 16]) (* r236b 2315 4970 *);
   (Simple (Arr (11300000000 # 1) (0 # 1) (8544241508679681 # 67108864)), [Conc 82; Conc 7]) (* r237f 2317 4971 *);
   (Simple (Arr (830535430231813 # 32768) ((-77113771693011) # 140737488355328) (6299707765781981 # 134217728)), [Conc 73; Conc 16]) (* r237b 2318 4972 *);
   (Simple (Arr (11300000000 # 1) (0 # 1) (8544241508679681 # 67108864)), [Conc 82; Conc 36]) (* r238f 2320 4973 *);
   (Simple (Arr (7288177600182481 # 134217728) (537465043843557 # 1125899906842624) (5607907341099989 # 134217728)), [Conc 15; Conc 16]) (* r238b 2321 4974 *);
   (Simple (Arr (1070000000 # 1) (0 # 1) (49496720 # 1)), [Conc 82; Conc 51]) (* r239f 2323 4975 *);
   (Simple (Arr (20203305002381 # 32768) (60691780280731 # 562949953421312) (7377045617454989 # 134217728)), [Conc 28; Conc 16]) (* r239b 2324 4976 *);
   (Simple (Arr (120000000 # 1) (0 # 1) (28242000 # 1)), [Conc 82; Conc 50]) (* r240f 2326 4977 *);
   (Simple (Arr (1443589008193651 # 68719476736) (2157173923786603 # 2251799813685248) (3992961456080451 # 134217728)), [Conc 6; Conc 16]) (* r240b 2327 4978 *);
   (Simple (Arr (850000000000000 # 1) (0 # 1) (58576000 # 1)), [Conc 16]) (* r241f 2329 4979 *);
   (Simple (Arr (6460193384536773 # 512) (43209457617745 # 140737488355328) (7765225932128807 # 33554432)), [Conc 32]) (* r241b 2330 4980 *);
   (Simple (Arr (100000000000000 # 1) (0 # 1) (58576000 # 1)), [Conc 16]) (* r242f 2332 4981 *);
   (Simple (Arr (2740175451101549 # 128) ((-2260160485861) # 35184372088832) (874366239189923 # 4194304)), [Conc 55]) (* r242b 2333 4982 *);
   (Falloff (Arr (102999999999999991390192682547428406052096346731627675648 # 1) ((-3180667236830413) # 281474976710656) (401297900 # 1)) (Arr (24499999999999998951424 # 1) ((-7836263351624663) # 4503599627370496) (361309320 # 1)) [Decay (8984771328596687 # 9007199254740992) (6316474399247565 # 8796093022208); Decay (2870774546471049 # 1152921504606846976) (3427802266382369 # 562949953421312); Grow (1 # 1) (3780 # 1)] 25, [Conc 54]) (* r243f 2342 4983 *);
   (Falloff (Arr (1084914350592852450532303449344953311402393600 # 1) ((-173562560554713) # 17592186044416) (2719660516004545 # 67108864)) (Arr (4228090287793939 # 16384) ((-1377603064344583) # 4503599627370496) (2308629710811035 # 4294967296)) [Decay (8984771328596687 # 9007199254740992) (6316474399247565 # 8796093022208); Decay (2870774546471049 # 1152921504606846976) (3427802266382369 # 562949953421312); Grow (1 # 1) (3780 # 1)] 25, [Conc 47; Conc 51]) (* r243b 2348 4984 *);
   (Falloff (Arr (11439999999999999071741735532350865392285425996419563520 # 1) ((-3180667236830413) # 281474976710656) (401297900 # 1)) (Arr (2720000000000000000000 # 1) ((-7836263351624663) # 4503599627370496) (361309320 # 1)) [Decay (8984771328596687 # 9007199254740992) (6316474399247565 # 8796093022208); Decay (2870774546471049 # 1152921504606846976) (3427802266382369 # 562949953421312); Grow (1 # 1) (3780 # 1)] 26, [Conc 54]) (* r244f 2357 4985 *);
   (Falloff (Arr (5104435564903669526116018406557221678164738048 # 1) ((-85447594571091) # 8796093022208) (6989762298707765 # 16777216)) (Arr (155346178870355 # 128) ((-694755982736647) # 4503599627370496) (1579716313628621 # 4194304)) [Decay (8984771328596687 # 9007199254740992) (6316474399247565 # 8796093022208); Decay (2870774546471049 # 1152921504606846976) (3427802266382369 # 562949953421312); Grow (1 # 1) (3780 # 1)] 26, [Conc 69; Conc 28]) (* r244b 2363 4986 *);
   (Simple (Arr (131 # 1) (1452410879826985 # 562949953421312) (5480893665771521 # 1073741824)), [Conc 54; Conc 0]) (* r245f 2365 4987 *);
   (Simple (Arr (1445753388569011 # 18014398509481984) (1824417988999993 # 562949953421312) (4251967694175835 # 67108864)), [Conc 21; Conc 32]) (* r245b 2367 4988 *);
   (Simple (Arr (3062447746611937 # 1125899906842624) (6980579422424269 # 2251799813685248) (5851527868579841 # 268435456)), [Conc 54; Conc 0]) (* r246f 2369 4989 *);
   (Simple (Arr (1731663839541589 # 72057594037927936) (1908151566534387 # 562949953421312) (7663403539982601 # 134217728)), [Conc 21; Conc 55]) (* r246b 2371 4990 *);
   (Simple (Arr (5940000000 # 1) (0 # 1) (7815712 # 1)), [Conc 54; Conc 44]) (* r247f 2373 4991 *);
   (Simple (Arr (4588178139988011 # 2147483648) (88310097593085 # 140737488355328) (8082497419547599 # 134217728)), [Conc 1; Conc 32]) (* r247b 2374 4992 *);
   (Simple (Arr (3370000000 # 1) (0 # 1) ((-2589896) # 1)), [Conc 54; Conc 1]) (* r248f 2376 4993 *);
   (Simple (Arr (1499093944473785 # 67108864) (78697834230207 # 140737488355328) (3974258922290727 # 33554432)), [Conc 45; Conc 32]) (* r248b 2377 4994 *);
   (Simple (Arr (30100000000 # 1) (0 # 1) (163803600 # 1)), [Conc 54; Conc 67]) (* r249f 2379 4995 *);
   (Simple (Arr (3782626662807215 # 33554432) (675110892361001 # 2251799813685248) ((-6570214214428705) # 1073741824)), [Conc 2; Conc 32]) (* r249b 2380 4996 *);
   (Simple (Arr (6686870939743417 # 9444732965739290427392) (2578310786669609 # 562949953421312) (8832325366317057 # 1073741824)), [Conc 54; Conc 51]) (* r250f 2382 4997 *);
   (Simple (Arr (7411501883355779 # 9444732965739290427392) (2659473295881209 # 562949953421312) (5058062159445043 # 67108864)), [Conc 28; Conc 32]) (* r250b 2384 4998 *);
   (Simple (Arr (3010000000 # 1) (0 # 1) (49873280 # 1)), [Conc 54; Conc 2]) (* r251f 2386 4999 *);
   (Simple (Arr (139527353802349 # 262144) (31465057985637 # 562949953421312) (2751694030952869 # 67108864)), [Conc 23; Conc 32]) (* r251b 2387 5000 *);
   (Simple (Arr (3010000000 # 1) (0 # 1) (49873280 # 1)), [Conc 7; Conc 54]) (* r252f 2389 5001 *);
   (Simple (Arr (6808646292016633 # 524288) ((-143992178920703) # 281474976710656) (8366956820855791 # 268435456)), [Conc 32; Conc 73]) (* r252b 2390 5002 *);
   (Simple (Arr (3010000000 # 1) (0 # 1) (49873280 # 1)), [Conc 54; Conc 34]) (* r253f 2392 5003 *);
   (Simple (Arr (8086634047327381 # 2097152) ((-43660159861773) # 562949953421312) (3621722582899065 # 67108864)), [Conc 13; Conc 32]) (* r253b 2393 5004 *);
   (Simple (Arr (3000000000000 # 1) ((-2422936599525327) # 2251799813685248) (0 # 1)), [Conc 54; Conc 1]) (* r254f 2395 5005 *);
   (Simple (Arr (1750801842342335 # 262144) ((-22287953226781) # 281474976710656) (6693133761128649 # 67108864)), [Conc 48; Conc 51]) (* r254b 2396 5006 *);
   (Simple (Arr (172 # 1) (5404319552844595 # 2251799813685248) (7322833340334081 # 2147483648)), [Conc 54; Conc 1]) (* r255f 2398 5007 *);
   (Simple (Arr (4628060952362045 # 281474976710656) (1456870826887251 # 562949953421312) (6810569327686209 # 67108864)), [Conc 45; Conc 55]) (* r255b 2400 5008 *);
   (Falloff (Arr (5650000000000000 # 1) ((-4368491638549381) # 4503599627370496) (61086400 # 1)) (Arr (1070000000000 # 1) (5674535530486825 # 9007199254740992) (70709600 # 1)) [Decay (835417730877227 # 2251799813685248) (8730000000 # 1); Decay (1416382082808021 # 2251799813685248) (1553741871442821 # 281474976710656); Grow (1 # 1) (76000000 # 1)] 27, [Conc 32]) (* r256f 2409 5009 *);
   (Falloff (Arr (2442230985810589 # 1073741824) (2123715656628211 # 4503599627370496) (38862505377751 # 4194304)) (Arr (1894445059492351 # 4398046511104) (2332368765105251 # 1125899906842624) (5070408424355265 # 268435456)) [Decay (835417730877227 # 2251799813685248) (8730000000 # 1); Decay (1416382082808021 # 2251799813685248) (1553741871442821 # 281474976710656); Grow (1 # 1) (76000000 # 1)] 27, [Conc 69; Conc 51]) (* r256b 2415 5010 *);
   (Simple (Arr (20000000000 # 1) (0 # 1) (0 # 1)), [Conc 32; Conc 0]) (* r257f 2417 5011 *);
   (Simple (Arr (2168953611929103 # 524288) (41918908531845 # 140737488355328) (8465482704712057 # 33554432)), [Conc 21; Conc 33]) (* r257b 2418 5012 *);
   (Simple (Arr (20000000000 # 1) (0 # 1) (0 # 1)), [Conc 32; Conc 44]) (* r258f 2420 5013 *);
   (Simple (Arr (5093672971159989 # 2097152) (37227228831681 # 140737488355328) (516821835170675 # 2097152)), [Conc 1; Conc 33]) (* r258b 2421 5014 *);
   (Simple (Arr (50000000000 # 1) (0 # 1) (0 # 1)), [Conc 32; Conc 51]) (* r259f 2423 5015 *);
   (Simple (Arr (4790054391200399 # 256) ((-30792241458505) # 140737488355328) (4381898848352297 # 16777216)), [Conc 28; Conc 33]) (* r259b 2424 5016 *);
   (Simple (Arr (120000000 # 1) (0 # 1) ((-4941789370777601) # 1073741824)), [Conc 32; Conc 67]) (* r260f 2426 5017 *);
   (Simple (Arr (93597227484238594048 # 1) ((-567526987816775) # 281474976710656) (5548161666670303 # 33554432)), [Conc 34]) (* r260b 2427 5018 *);
   (Simple (Arr (17500000 # 1) (0 # 1) ((-13702600) # 1)), [Conc 34; Conc 2]) (* r261f 2429 5019 *);
   (Simple (Arr (6276712768305427 # 1048576) ((-106218941475703) # 281474976710656) (2689632350452807 # 16777216)), [Conc 67; Conc 13]) (* r261b 2430 5020 *);
   (Simple (Arr (2410000000 # 1) (0 # 1) (41572224 # 1)), [Conc 23; Conc 34]) (* r262f 2432 5021 *);
   (Simple (Arr (4576942008543413 # 262144) ((-75125217847159) # 562949953421312) (7319786557079723 # 134217728)), [Conc 13; Conc 2]) (* r262b 2433 5022 *);
   (Simple (Arr (181000000 # 1) (0 # 1) (77320320 # 1)), [Conc 28; Conc 34]) (* r263f 2435 5023 *);
   (Simple (Arr (3509833979097873 # 16777216) ((-499290676292707) # 2251799813685248) (119702554176441 # 8388608)), [Conc 13; Conc 51]) (* r263b 2436 5024 *);
   (Simple (Arr (1990000000 # 1) (0 # 1) (48785440 # 1)), [Conc 24; Conc 34]) (* r264f 2438 5025 *);
   (Simple (Arr (3919007001687577 # 262144) ((-441310443104527) # 1125899906842624) (3875738781934423 # 67108864)), [Conc 13; Conc 47]) (* r264b 2439 5026 *);
   (Simple (Arr (17000000000 # 1) (0 # 1) (85604640 # 1)), [Conc 9; Conc 34]) (* r265f 2441 5027 *);
   (Simple (Arr (549998265842881 # 65536) ((-239309511540621) # 1125899906842624) (1364317312622849 # 33554432)), [Conc 13; Conc 30]) (* r265b 2442 5028 *);
   (Simple (Arr (501000000000000 # 1) (0 # 1) (167987600 # 1)), [Conc 13]) (* r266f 2444 5029 *);
   (Simple (Arr (581625172710111 # 68719476736) (4163601524805963 # 2251799813685248) (4736181968715811 # 1073741824)), [Conc 1; Conc 57]) (* r266b 2445 5030 *);
   (Simple (Arr (4400000000000 # 1) (0 # 1) (43932000 # 1)), [Conc 57; Third 28]) (* r267f 2447 5031 *);
   (Simple (Arr (3611922121087851 # 8796093022208) (25911323732243 # 17592186044416) (4759606794645331 # 67108864)), [Conc 3; Conc 51; Third 28]) (* r267b 2448 5032 *);
   (Falloff (Arr (599999999999999925509160960 # 1) ((-4278419646001971) # 1125899906842624) (6096357030048563 # 33554432)) (Arr (1430000000000000 # 1) ((-5404319552844595) # 36028797018963968) (190790400 # 1)) [Decay (135107988821115 # 9007199254740992) (393 # 1); Decay (8872091265919877 # 9007199254740992) (9800000000 # 1); Grow (1 # 1) (5000000000 # 1)] 29, [Conc 55]) (* r268f 2457 5033 *);
   (Falloff (Arr (35832586552602869628928 # 1) ((-7830766953560381) # 2251799813685248) (6392513081891595 # 268435456)) (Arr (5596839801675459 # 65536) (6212837862252381 # 36028797018963968) (2209141216481371 # 67108864)) [Decay (135107988821115 # 9007199254740992) (393 # 1); Decay (8872091265919877 # 9007199254740992) (9800000000 # 1); Grow (1 # 1) (5000000000 # 1)] 29, [Conc 0; Conc 33]) (* r268b 2463 5034 *);
   (Falloff (Arr (9519999999999999761459663863808 # 1) ((-713539065961513) # 140737488355328) (172799200 # 1)) (Arr (2930000000000 # 1) (5224175567749775 # 18014398509481984) (168615200 # 1)) [Decay (9007199254740991 # 9007199254740992) (1150 # 1); Decay (361533951185091 # 5070602400912917605986812821504) (4990000000 # 1); Grow (1 # 1) (1790000000 # 1)] 30, [Conc 55]) (* r269f 2472 5035 *);
   (Falloff (Arr (265744079789591724032 # 1) ((-916814976851677) # 281474976710656) (301853475797573 # 2097152)) (Arr (719422611615107 # 8796093022208) (2367563593269757 # 1125899906842624) (293078991829573 # 2097152)) [Decay (9007199254740991 # 9007199254740992) (1150 # 1); Decay (361533951185091 # 5070602400912917605986812821504) (4990000000 # 1); Grow (1 # 1) (1790000000 # 1)] 30, [Conc 69; Conc 51]) (* r269b 2478 5036 *);
   (Plog [((1000 # 1), (Arr (158000000000000000000000000000000000000000000000000000000000000000000000000 # 1) ((-219) # 10) (80960400 # 1))); ((10000 # 1), (Arr (3880000000000000000000000000000000000000000000000000000000000000000 # 1) ((-471) # 25) (80500200 # 1))); ((100000 # 1), (Arr (780000000000000000000000000000000000000000000000000000000 # 1) ((-77) # 5) (73847600 # 1))); ((1000000 # 1), (Arr (305000000000000000000000000000000000000000000000 # 1) ((-61) # 5) (65395900 # 1)))], [Conc 55; Conc 67]) (* r270f 2497 5037 *);
   (Plog [((1000 # 1), (Arr (83841000000000000000000000000000000000000000000000000000000000000000000000000000000000 # 1) ((-239707) # 10000) (188136000 # 1))); ((10000 # 1), (Arr (2058880000000000000000000000000000000000000000000000000000000000000000000000000 # 1) ((-209107) # 10000) (187675000 # 1))); ((100000 # 1), (Arr (413899000000000000000000000000000000000000000000000000000000000000000 # 1) ((-174707) # 10000) (181023000 # 1))); ((1000000 # 1), (Arr (161845000000000000000000000000000000000000000000000000000000 # 1) ((-142707) # 10000) (172571000 # 1)))], [Conc 78]) (* r270b 2516 5038 *);
   (Plog [((1000 # 1), (Arr (188 # 1) (237 # 100) (99286300 # 1))); ((10000 # 1), (Arr (188 # 1) (237 # 100) (114516000 # 1))); ((100000 # 1), (Arr (251 # 1) (233 # 100) (99579200 # 1))); ((1000000 # 1), (Arr (70500 # 1) (163 # 100) (105813000 # 1)))], [Conc 55; Conc 67]) (* r271f 2535 5039 *);
   (Plog [((1000 # 1), (Arr (164843 # 10000) (26781 # 10000) (146357000 # 1))); ((10000 # 1), (Arr (164843 # 10000) (26781 # 10000) (161586000 # 1))); ((100000 # 1), (Arr (220083 # 10000) (26381 # 10000) (146649000 # 1))); ((1000000 # 1), (Arr (618161 # 100) (19381 # 10000) (152884000 # 1)))], [Conc 2; Conc 33]) (* r271b 2554 5040 *);
   (Plog [((1000 # 1), (Arr (268000000000000 # 1) ((-46) # 25) (27321500 # 1))); ((10000 # 1), (Arr (152000000000000000 # 1) ((-129) # 50) (37572300 # 1))); ((100000 # 1), (Arr (16500000000000000 # 1) ((-111) # 50) (43262600 # 1))); ((1000000 # 1), (Arr (89530000000 # 1) ((-3) # 5) (42342100 # 1)))], [Conc 55; Conc 67]) (* r272 2573 5041 *);
   (Plog [((1000 # 1), (Arr (364000000000000000000000000000000000000000000000000000000000000 # 1) ((-2187) # 100) (79579700 # 1))); ((10000 # 1), (Arr (36400000000000000000000000000000000000000000000000000000 # 1) ((-19) # 1) (79872600 # 1))); ((100000 # 1), (Arr (6650000000000000000000000000000000000000000000 # 1) ((-311) # 20) (73052600 # 1))); ((1000000 # 1), (Arr (480000000000000000000000000000000000 # 1) ((-607) # 50) (62592600 # 1)))], [Conc 55; Conc 67]) (* r273f 2592 5042 *);
   (Plog [((1000 # 1), (Arr (60998600000000000000000000000000000000000000000000000000000000000000000000 # 1) ((-240309) # 10000) (178258000 # 1))); ((10000 # 1), (Arr (6099860000000000000000000000000000000000000000000000000000000000000 # 1) ((-211609) # 10000) (178551000 # 1))); ((100000 # 1), (Arr (1114400000000000000000000000000000000000000000000000000000 # 1) ((-177109) # 10000) (171731000 # 1))); ((1000000 # 1), (Arr (80437800000000000000000000000000000000000000000 # 1) ((-143009) # 10000) (161271000 # 1)))], [Conc 12]) (* r273b 2611 5043 *);
   (Plog [((1000 # 1), (Arr (8270000000000000000000000000000 # 1) ((-133) # 20) (102508000 # 1))); ((10000 # 1), (Arr (173000000000000000000000000 # 1) ((-499) # 100) (99411800 # 1))); ((100000 # 1), (Arr (90300000000000000000 # 1) ((-73) # 25) (92759300 # 1))); ((1000000 # 1), (Arr (14300000000000000 # 1) ((-167) # 100) (88742600 # 1)))], [Conc 78]) (* r274f 2630 5044 *);
   (Plog [((1000 # 1), (Arr (2611710000000000000000000000000 # 1) ((-134803) # 20000) (94011000 # 1))); ((10000 # 1), (Arr (54634300000000000000000000 # 1) ((-101603) # 20000) (90914900 # 1))); ((100000 # 1), (Arr (28517200000000000000 # 1) ((-60203) # 20000) (84262300 # 1))); ((1000000 # 1), (Arr (4516020000000000 # 1) ((-35203) # 20000) (80245700 # 1)))], [Conc 12]) (* r274b 2649 5045 *);
   (Plog [((1000 # 1), (Arr (20500000000000000000000000000000000000000 # 1) ((-1331) # 100) (218196000 # 1))); ((10000 # 1), (Arr (5720000000000000000000000000000000000000000000 # 1) ((-14) # 1) (218405000 # 1))); ((100000 # 1), (Arr (41600000000000000000000000000000000000000000000000000000 # 1) ((-394) # 25) (230455000 # 1))); ((1000000 # 1), (Arr (11200000000000000000000000000000000000000000000000000000000000 # 1) ((-401) # 25) (251082000 # 1)))], [Conc 78]) (* r275f 2668 5046 *);
   (Plog [((1000 # 1), (Arr (3387400000000000000000000000 # 1) ((-6832) # 625) (158091000 # 1))); ((10000 # 1), (Arr (945168000000000000000000000000000 # 1) ((-29053) # 2500) (158300000 # 1))); ((100000 # 1), (Arr (6873950000000000000000000000000000000000000 # 1) ((-33453) # 2500) (170350000 # 1))); ((1000000 # 1), (Arr (1850680000000000000000000000000000000000000000000 # 1) ((-34153) # 2500) (190977000 # 1)))], [Conc 2; Conc 33]) (* r275b 2687 5047 *);
   (Plog [((1000 # 1), (Arr (236000000000000000 # 1) ((-59) # 20) (33890400 # 1))); ((10000 # 1), (Arr (2380000000000000000 # 1) ((-59) # 20) (33890400 # 1))); ((100000 # 1), (Arr (25100000000000000000 # 1) ((-59) # 20) (33932200 # 1))); ((1000000 # 1), (Arr (416000000000000000000 # 1) ((-151) # 50) (34476200 # 1)))], [Conc 12]) (* r276 2706 5048 *);
   (Plog [((1000 # 1), (Arr (11200000 # 1) ((-94) # 25) (90709100 # 1))); ((10000 # 1), (Arr (110000000 # 1) ((-94) # 25) (90709100 # 1))); ((100000 # 1), (Arr (920000000 # 1) ((-373) # 100) (90499900 # 1))); ((1000000 # 1), (Arr (2090000000 # 1) ((-71) # 20) (88784500 # 1)))], [Conc 12]) (* r277f 2725 5049 *);
   (Plog [((1000 # 1), (Arr (586019 # 100000000000) ((-64551) # 50000) (39101100 # 1))); ((10000 # 1), (Arr (115111 # 2000000000) ((-64551) # 50000) (39101100 # 1))); ((100000 # 1), (Arr (481373 # 1000000000) ((-63051) # 50000) (38891900 # 1))); ((1000000 # 1), (Arr (21871 # 20000000) ((-54051) # 50000) (37176500 # 1)))], [Conc 2; Conc 33]) (* r277b 2744 5050 *);
   (Falloff (Arr (2690000000000000043989860352 # 1) ((-5753348523965809) # 1125899906842624) (7968635360378881 # 268435456)) (Arr (810000000 # 1) (0 # 1) (0 # 1)) [Decay (230415415935343 # 562949953421312) (275 # 1); Decay (332534537485969 # 562949953421312) (1226 # 1); Grow (1 # 1) (5185 # 1)] 31, [Conc 74; Conc 69]) (* r278f 2752 5051 *);
   (Falloff (Arr (726728091920326286687152895069977051136 # 1) ((-956559190824771) # 140737488355328) (6106469226800501 # 16777216)) (Arr (218828905002031382528 # 1) ((-1899125002632359) # 1125899906842624) (5608429516776821 # 16777216)) [Decay (230415415935343 # 562949953421312) (275 # 1); Decay (332534537485969 # 562949953421312) (1226 # 1); Grow (1 # 1) (5185 # 1)] 31, [Conc 33]) (* r278b 2758 5052 *);
   (Falloff (Arr (1515999999999999907456206763706419065878766157824 # 1) ((-2890748010818437) # 281474976710656) (231751760 # 1)) (Arr (94130000 # 1) (8633400485669241 # 4503599627370496) (3157915721321677 # 16777216)) [Decay (1797386611283565 # 4503599627370496) (8103000000 # 1); Decay (2706213016086931 # 4503599627370496) (2936575655464141 # 4398046511104); Grow (1 # 1) (5000000000 # 1)] 32, [Conc 32]) (* r279f 2767 5053 *);
   (Falloff (Arr (1305683389055939217685838391293325776663871488 # 1) ((-2904489167635221) # 281474976710656) (213588719797357 # 4194304)) (Arr (2785586087240931 # 34359738368) (8413541976600697 # 4503599627370496) (3971880467550217 # 536870912)) [Decay (1797386611283565 # 4503599627370496) (8103000000 # 1); Decay (2706213016086931 # 4503599627370496) (2936575655464141 # 4398046511104); Grow (1 # 1) (5000000000 # 1)] 32, [Conc 0; Conc 33]) (* r279b 2773 5054 *);
   (Simple (Arr (1401000000000 # 1) ((-6160924290242839) # 36028797018963968) (4932355045615207 # 134217728)), [Conc 33; Conc 0]) (* r280f 2775 5055 *);
   (Simple (Arr (5260662488052007 # 1048576) (105366547234119 # 562949953421312) (6691995971860155 # 268435456)), [Conc 21; Conc 56]) (* r280b 2777 5056 *);
   (Simple (Arr (77040000000 # 1) ((-6160924290242839) # 36028797018963968) (4698293930872013 # 268435456)), [Conc 33; Conc 0]) (* r281f 2779 5057 *);
   (Simple (Arr (1237273934907049 # 34359738368) (185685945874233 # 140737488355328) (153626757589935 # 1048576)), [Conc 69; Conc 51]) (* r281b 2781 5058 *);
   (Simple (Arr (1750000000 # 1) (0 # 1) (6064923318681601 # 1073741824)), [Conc 33; Conc 44]) (* r282f 2783 5059 *);
   (Simple (Arr (646006138454187 # 134217728) (204803560658181 # 281474976710656) (6913763612396487 # 33554432)), [Conc 3; Conc 74]) (* r282b 2784 5060 *);
   (Simple (Arr (10000000000 # 1) (0 # 1) (33472000 # 1)), [Conc 33; Conc 44]) (* r283f 2786 5061 *);
   (Simple (Arr (352730561908473 # 16777216) (365728540936945 # 1125899906842624) (8483381456023417 # 536870912)), [Conc 1; Conc 56]) (* r283b 2787 5062 *);
   (Simple (Arr (10000000000 # 1) (0 # 1) (8368000 # 1)), [Conc 33; Conc 1]) (* r284f 2789 5063 *);
   (Simple (Arr (3250185851357765 # 8388608) (144415217016891 # 562949953421312) (7962598854127655 # 134217728)), [Conc 45; Conc 56]) (* r284b 2790 5064 *);
   (Simple (Arr (2000000000 # 1) (0 # 1) ((-4225840) # 1)), [Conc 33; Conc 1]) (* r285f 2792 5065 *);
   (Simple (Arr (3509175337085793 # 536870912) (313437981750061 # 562949953421312) (7457956941038407 # 67108864)), [Conc 69; Conc 27]) (* r285b 2793 5066 *);
   (Simple (Arr (838971352458199 # 17592186044416) (5206161169240293 # 2251799813685248) (39614112 # 1)), [Conc 33; Conc 51]) (* r286f 2795 5067 *);
   (Simple (Arr (4144199195450741 # 1125899906842624) (735292314348479 # 281474976710656) (2165350641657267 # 16777216)), [Conc 69; Conc 30]) (* r286b 2797 5068 *);
   (Simple (Arr (160000000000 # 1) (0 # 1) (0 # 1)), [Conc 8; Conc 33]) (* r287f 2799 5069 *);
   (Simple (Arr (6984795404239817 # 16384) (3766066226543 # 17592186044416) (7396729022684271 # 16777216)), [Conc 69; Conc 53]) (* r287b 2800 5070 *);
   (Simple (Arr (100000000000 # 1) (0 # 1) (0 # 1)), [Conc 56; Conc 1]) (* r288 2802 5071 *);
   (Simple (Arr (80000000000 # 1) (0 # 1) (0 # 1)), [Conc 56; Conc 44]) (* r289 2803 5072 *);
   (Simple (Arr (100000000000 # 1) (0 # 1) (0 # 1)), [Conc 56; Conc 0]) (* r290f 2804 5073 *);
   (Simple (Arr (5915274622921167 # 137438953472) (480171118766489 # 281474976710656) (4930003366305179 # 67108864)), [Conc 69; Conc 8]) (* r290b 2805 5074 *);
   (Simple (Arr (191000000 # 1) ((-5764607523034235) # 288230376151711744) (4267680 # 1)), [Conc 56; Conc 67]) (* r291 2807 5075 *);
   (Simple (Arr (4780000000 # 1) ((-5116089176692883) # 36028797018963968) (4811600 # 1)), [Conc 56; Conc 67]) (* r292 2809 5076 *);
   (Simple (Arr (75700000000000000 # 1) ((-4278419646001971) # 2251799813685248) (0 # 1)), [Conc 52; Conc 69; Third 33]) (* r293f 2811 5077 *);
   (Simple (Arr (883681007438619063533699072 # 1) ((-489884576710225) # 140737488355328) (325622655110545 # 1048576)), [Conc 56; Third 33]) (* r293b 2812 5078 *);
   (Simple (Arr (94600000000 # 1) (0 # 1) ((-2154760) # 1)), [Conc 52; Conc 24]) (* r294f 2814 5079 *);
   (Simple (Arr (108012713088212176 # 1) ((-178877449931751) # 140737488355328) (2662684020676623 # 8388608)), [Conc 33; Conc 0]) (* r294b 2815 5080 *);
   (Simple (Arr (50000000000 # 1) (0 # 1) (0 # 1)), [Conc 52; Conc 56]) (* r295f 2817 5081 *);
   (Simple (Arr (6652338099822817 # 16384) (9754682357861 # 35184372088832) (1376937741002463 # 2097152)), [Conc 10; Conc 69]) (* r295b 2818 5082 *);
   (Falloff (Arr (1400000000000000083886080 # 1) ((-8691947280825057) # 2251799813685248) (7457609414082561 # 536870912)) (Arr (6080000000 # 1) (607985949695017 # 2251799813685248) (5031640086609921 # 4294967296)) [Decay (61361544922923 # 281474976710656) (415 # 2); Decay (220113431787733 # 281474976710656) (2663 # 1); Grow (1 # 1) (6095 # 1)] 34, [Conc 76; Conc 0]) (* r296f 2827 5083 *);
   (Falloff (Arr (1853131806782021308290898591744 # 1) ((-580900093619225) # 140737488355328) (8013042206200021 # 16777216)) (Arr (8047886703739064 # 1) (2765866306237 # 1125899906842624) (3899823378049131 # 8388608)) [Decay (61361544922923 # 281474976710656) (415 # 2); Decay (220113431787733 # 281474976710656) (2663 # 1); Grow (1 # 1) (6095 # 1)] 34, [Conc 53]) (* r296b 2833 5084 *);
   (Falloff (Arr (699999999999999949562451716946656452454828212224 # 1) ((-5241064066352415) # 562949953421312) (7009759752355841 # 16777216)) (Arr (8000000000000 # 1) (7926335344172073 # 18014398509481984) (371413680 # 1)) [Decay (2391411402133733 # 9007199254740992) (180 # 1); Decay (6615787852607259 # 9007199254740992) (1035 # 1); Grow (1 # 1) (5417 # 1)] 35, [Conc 53]) (* r297f 2842 5085 *);
   (Falloff (Arr (3399204563321161719798886940691302187008 # 1) ((-2386346329177631) # 281474976710656) (3319797679286035 # 67108864)) (Arr (5339235632229797 # 137438953472) (2864277550010121 # 2251799813685248) (6589081879110107 # 2147483648)) [Decay (2391411402133733 # 9007199254740992) (180 # 1); Decay (6615787852607259 # 9007199254740992) (1035 # 1); Grow (1 # 1) (5417 # 1)] 35, [Conc 88; Conc 21]) (* r297b 2848 5086 *);
   (Simple (Arr (6968154941030399 # 137438953472) (8691947280825057 # 4503599627370496) (54182800 # 1)), [Conc 53; Conc 0]) (* r298f 2850 5087 *);
   (Simple (Arr (5178585428757551 # 562949953421312) (2864529824273391 # 1125899906842624) (6329286978268863 # 268435456)), [Conc 21; Conc 76]) (* r298b 2852 5088 *);
   (Simple (Arr (8194660161814527 # 1099511627776) (2116691824864133 # 1125899906842624) (765672 # 1)), [Conc 53; Conc 44]) (* r299f 2854 5089 *);
   (Simple (Arr (3226580542519545 # 18014398509481984) (1497706225082887 # 562949953421312) (911147995152413 # 8388608)), [Conc 47; Conc 51]) (* r299b 2856 5090 *);
   (Simple (Arr (6098 # 1) (2116691824864133 # 1125899906842624) (765672 # 1)), [Conc 53; Conc 44]) (* r300f 2858 5091 *);
   (Simple (Arr (8793138649948809 # 17179869184) (658222452341163 # 562949953421312) (4802846206380089 # 67108864)), [Conc 0; Conc 55]) (* r300b 2860 5092 *);
   (Simple (Arr (6276891980647629 # 281474976710656) (3090595244283003 # 1125899906842624) (9269652 # 1)), [Conc 53; Conc 1]) (* r301f 2862 5093 *);
   (Simple (Arr (3154524630390885 # 72057594037927936) (3667706703845357 # 1125899906842624) (5562324773155403 # 134217728)), [Conc 45; Conc 76]) (* r301b 2864 5094 *);
   (Plog [((1000 # 1), (Arr (107 # 20000) (73 # 25) ((-7249620) # 1))); ((2500 # 1), (Arr (319 # 10000) (271 # 100) ((-4904900) # 1))); ((10000 # 1), (Arr (111 # 200) (59 # 25) ((-756467) # 1))); ((100000 # 1), (Arr (178 # 1) (42 # 25) (8621130 # 1))); ((1000000 # 1), (Arr (2370000 # 1) (14 # 25) (25132000 # 1))); ((10000000 # 1), (Arr (27600000000 # 1) ((-1) # 2) (47928100 # 1)))], [Conc 53; Conc 1]) (* r302f 2891 5095 *);
   (Plog [((1000 # 1), (Arr (609551 # 10000000000) (338739 # 100000) (43325500 # 1))); ((2500 # 1), (Arr (90863 # 250000000) (317739 # 100000) (45670200 # 1))); ((10000 # 1), (Arr (316169 # 50000000) (282739 # 100000) (49818600 # 1))); ((100000 # 1), (Arr (50701 # 25000) (214739 # 100000) (59196200 # 1))); ((1000000 # 1), (Arr (54005 # 2) (102739 # 100000) (75707100 # 1))); ((10000000 # 1), (Arr (314460000 # 1) ((-326139) # 10000000) (98503200 # 1)))], [Conc 24; Conc 51]) (* r302b 2918 5096 *);
   (Plog [((1000 # 1), (Arr (237 # 1000000000000) (53 # 10) ((-8579710) # 1))); ((2500 # 1), (Arr (873 # 10000000000) (457 # 100) ((-2585710) # 1))); ((10000 # 1), (Arr (403 # 1000000) (177 # 50) (7873030 # 1))); ((100000 # 1), (Arr (119 # 5000000) (391 # 100) (7207780 # 1))); ((1000000 # 1), (Arr (825000 # 1) (101 # 100) (43962500 # 1))); ((10000000 # 1), (Arr (6800000 # 1) (81 # 100) (58020800 # 1)))], [Conc 53; Conc 1]) (* r303f 2945 5097 *);
   (Plog [((1000 # 1), (Arr (191743 # 50000000000) (216651 # 50000) (32775600 # 1))); ((2500 # 1), (Arr (141259 # 100000000) (180151 # 50000) (38769600 # 1))); ((10000 # 1), (Arr (81511 # 12500) (128651 # 50000) (49228400 # 1))); ((100000 # 1), (Arr (24069 # 62500) (147151 # 50000) (48563100 # 1))); ((1000000 # 1), (Arr (13349200000 # 1) (430163 # 10000000) (85317900 # 1))); ((10000000 # 1), (Arr (110030000000 # 1) ((-19623) # 125000) (99376100 # 1)))], [Conc 0; Conc 54]) (* r303b 2972 5098 *);
   (Plog [((1000 # 1), (Arr (52 # 5) (13 # 5) (17242300 # 1))); ((2500 # 1), (Arr (107 # 10) (13 # 5) (17275700 # 1))); ((10000 # 1), (Arr (76 # 5) (64 # 25) (17733000 # 1))); ((100000 # 1), (Arr (319 # 1) (219 # 100) (21989400 # 1))); ((1000000 # 1), (Arr (194000 # 1) (143 # 100) (32755700 # 1))); ((10000000 # 1), (Arr (85500000 # 1) (3 # 4) (48077500 # 1)))], [Conc 53; Conc 1]) (* r304f 2999 5099 *);
   (Plog [((1000 # 1), (Arr (6839690 # 1) (55451 # 50000) (14833700 # 1))); ((2500 # 1), (Arr (7036990 # 1) (55451 # 50000) (14867200 # 1))); ((10000 # 1), (Arr (9996470 # 1) (53451 # 50000) (15324500 # 1))); ((100000 # 1), (Arr (209794000 # 1) (349511 # 500000) (19580800 # 1))); ((1000000 # 1), (Arr (127587000000 # 1) ((-609783) # 10000000) (30347100 # 1))); ((10000000 # 1), (Arr (56230200000000 # 1) ((-370489) # 500000) (45668900 # 1)))], [Conc 0; Conc 77]) (* r304b 3026 5100 *);
   (Plog [((1000 # 1), (Arr (17400000000000000000000000000000000000000 # 1) ((-10461) # 1000) (32211400 # 1))); ((2500 # 1), (Arr (32500000000000000000000000000000000 # 1) ((-8629) # 1000) (21818300 # 1))); ((10000 # 1), (Arr (184000000000000000000000000000000 # 1) ((-31) # 4) (20538800 # 1))); ((100000 # 1), (Arr (2560000000000000000000000000000000 # 1) ((-969) # 125) (29062500 # 1))); ((1000000 # 1), (Arr (3700000000000000000000000000000 # 1) ((-6573) # 1000) (31823100 # 1))); ((10000000 # 1), (Arr (112000000000000000000000 # 1) ((-4101) # 1000) (24087300 # 1)))], [Conc 53; Conc 1]) (* r305f 3053 5101 *);
   (Plog [((1000 # 1), (Arr (2916120000000000000000000000000000000000000000000 # 1) ((-59301) # 5000) (148098000 # 1))); ((2500 # 1), (Arr (5446770000000000000000000000000000000000000 # 1) ((-50141) # 5000) (137705000 # 1))); ((10000 # 1), (Arr (30837100000000000000000000000000000000000 # 1) ((-182983) # 20000) (136425000 # 1))); ((100000 # 1), (Arr (429038000000000000000000000000000000000000 # 1) ((-183023) # 20000) (144949000 # 1))); ((1000000 # 1), (Arr (620094000000000000000000000000000000000 # 1) ((-159443) # 20000) (147709000 # 1))); ((10000000 # 1), (Arr (18770400000000000000000000000000 # 1) ((-110003) # 20000) (139974000 # 1)))], [Conc 35]) (* r305b 3080 5102 *);
   (Simple (Arr (531000000 # 1) (7566047373982433 # 36028797018963968) (166648720 # 1)), [Conc 77; Conc 67]) (* r306f 3082 5103 *);
   (Simple (Arr (6061372338019637 # 8589934592) (1491918105038403 # 2251799813685248) (1176649159840415 # 67108864)), [Conc 2; Conc 55]) (* r306b 3084 5104 *);
   (Simple (Arr (1875 # 1) (4278419646001971 # 2251799813685248) ((-7727161561579521) # 2147483648)), [Conc 77; Conc 44]) (* r307f 3086 5105 *);
   (Simple (Arr (8621532840866673 # 36028797018963968) (1508827614823611 # 562949953421312) (4671626134401769 # 67108864)), [Conc 1; Conc 55]) (* r307b 3088 5106 *);
   (Simple (Arr (3330000 # 1) (2476979795053773 # 2251799813685248) (2261452 # 1)), [Conc 77; Conc 1]) (* r308f 3090 5107 *);
   (Simple (Arr (4305688613379511 # 549755813888) (255004649658795 # 140737488355328) (2417610268707161 # 16777216)), [Conc 45; Conc 55]) (* r308b 3092 5108 *);
   (Simple (Arr (6282545699373305 # 309485009821345068724781056) (3321404725185741 # 562949953421312) (4401568 # 1)), [Conc 77; Conc 51]) (* r309f 3094 5109 *);
   (Simple (Arr (4941495754298651 # 618970019642690137449562112) (3488549547348161 # 562949953421312) (6197780829447501 # 67108864)), [Conc 28; Conc 55]) (* r309b 3096 5110 *);
   (Simple (Arr (7656119366529843 # 2251799813685248) (5 # 2) (37329648 # 1)), [Conc 77; Conc 7]) (* r310f 3098 5111 *);
   (Simple (Arr (5860201546059049 # 1125899906842624) (2410745677325271 # 1125899906842624) (5292610176716803 # 134217728)), [Conc 73; Conc 55]) (* r310b 3100 5112 *);
   (Simple (Arr (3332663724254167 # 2251799813685248) (1732197006677377 # 562949953421312) (8109027103866881 # 268435456)), [Conc 77; Conc 0]) (* r311f 3102 5113 *);
   (Simple (Arr (5934636012918255 # 18446744073709551616) (1095093214400699 # 281474976710656) (7333023393130427 # 67108864)), [Conc 21; Conc 55]) (* r311b 3104 5114 *);
   (Simple (Arr (24700 # 1) (4571153621781053 # 2251799813685248) (63596800 # 1)), [Conc 77; Conc 0]) (* r312f 3106 5115 *);
   (Simple (Arr (4131007790991673 # 70368744177664) (5798734603791649 # 2251799813685248) (387657129977031 # 16777216)), [Conc 21; Conc 11]) (* r312b 3108 5116 *);
   (Simple (Arr (301000 # 1) (887772076545409 # 562949953421312) (15355280 # 1)), [Conc 77; Conc 0]) (* r313f 3110 5117 *);
   (Simple (Arr (1286881816505139 # 16777216) (469732768760079 # 281474976710656) (4484556797029635 # 33554432)), [Conc 35]) (* r313b 3112 5118 *);
   (Simple (Arr (149 # 1) (940126422213591 # 562949953421312) (28493040 # 1)), [Conc 77; Conc 2]) (* r314f 3114 5119 *);
   (Simple (Arr (8254937132369691 # 2251799813685248) (1235109133409387 # 562949953421312) (2424541180312005 # 33554432)), [Conc 2; Conc 54]) (* r314b 3116 5120 *);
   (Plog [((10000 # 1), (Arr (74200000000000000000000000000000000000000000000 # 1) ((-264) # 25) (282085000 # 1))); ((100000 # 1), (Arr (4420000000000000000000000000000000000000000 # 1) ((-909) # 100) (280618000 # 1))); ((10000000 # 1), (Arr (2900000000000000000000000000 # 1) ((-87) # 20) (257788000 # 1)))], [Conc 77]) (* r315f 3131 5121 *);
   (Plog [((10000 # 1), (Arr (1825580000000000000000000000000000000000000000 # 1) ((-2509) # 250) (325849000 # 1))); ((100000 # 1), (Arr (108748000000000000000000000000000000000000 # 1) ((-856601) # 100000) (324381000 # 1))); ((10000000 # 1), (Arr (71350300000000000000000000 # 1) ((-382601) # 100000) (301552000 # 1)))], [Conc 54]) (* r315b 3146 5122 *);
   (Simple (Arr (7632340360497327 # 1152921504606846976) (4165829655317709 # 1125899906842624) (5334886252544001 # 134217728)), [Conc 53; Conc 51]) (* r316f 3148 5123 *);
   (Simple (Arr (5010732840070325 # 2305843009213693952) (8551366918923515 # 2251799813685248) (2420497396970193 # 134217728)), [Conc 28; Conc 76]) (* r316b 3150 5124 *);
   (Simple (Arr (42200000000 # 1) (0 # 1) (8089807474183373 # 33554432)), [Conc 53; Conc 67]) (* r317f 3152 5125 *);
   (Simple (Arr (6282459056495493 # 134217728) (17817764493873 # 70368744177664) ((-4747732827929897) # 268435456)), [Conc 2; Conc 76]) (* r317b 3153 5126 *);
   (Simple (Arr (120000000 # 1) (0 # 1) (28242000 # 1)), [Conc 53; Conc 50]) (* r318f 3155 5127 *);
   (Simple (Arr (3289488505548639 # 274877906944) (1067057205476059 # 1125899906842624) (5517828558461227 # 2147483648)), [Conc 6; Conc 76]) (* r318b 3156 5128 *);
   (Simple (Arr (4951797862286407 # 576460752303423488) (8453256500574421 # 2251799813685248) (7618217568632833 # 67108864)), [Conc 53; Conc 7]) (* r319f 3158 5129 *);
   (Simple (Arr (3163643315638545 # 288230376151711744) (1799094160162865 # 562949953421312) (6396501716092581 # 1073741824)), [Conc 73; Conc 76]) (* r319b 3160 5130 *);
   (Simple (Arr (4951797862286407 # 576460752303423488) (8453256500574421 # 2251799813685248) (7618217568632833 # 67108864)), [Conc 53; Conc 36]) (* r320f 3162 5131 *);
   (Simple (Arr (6940460788522111 # 295147905179352825856) (4752563537713345 # 1125899906842624) (3448393274547633 # 4294967296)), [Conc 15; Conc 76]) (* r320b 3164 5132 *);
   (Simple (Arr (11300000000 # 1) (0 # 1) (8544241508679681 # 67108864)), [Conc 53; Conc 34]) (* r321f 3166 5133 *);
   (Simple (Arr (8991041011274553 # 2097152) ((-34947883500511) # 281474976710656) (5711577349975589 # 134217728)), [Conc 13; Conc 76]) (* r321b 3167 5134 *);
   (Simple (Arr (2820000000 # 1) (0 # 1) (71588240 # 1)), [Conc 53; Conc 7]) (* r322f 3169 5135 *);
   (Simple (Arr (2300322852432797 # 512) ((-114391217843941) # 140737488355328) (5755134162556219 # 33554432)), [Conc 50; Conc 82]) (* r322b 3170 5136 *);
   (Simple (Arr (2820000000 # 1) (0 # 1) (71588240 # 1)), [Conc 53; Conc 36]) (* r323f 3172 5137 *);
   (Simple (Arr (733872660087407 # 65536) ((-1695028705749) # 281474976710656) (5471719599154953 # 33554432)), [Conc 14; Conc 82]) (* r323b 3173 5138 *);
   (Simple (Arr (557500000 # 1) (0 # 1) (71922960 # 1)), [Conc 53; Conc 2]) (* r324f 3175 5139 *);
   (Simple (Arr (474675595517931 # 2048) ((-134669487322607) # 281474976710656) (2581956326202005 # 16777216)), [Conc 1; Conc 82]) (* r324b 3176 5140 *);
   (Simple (Arr (60000000000 # 1) (0 # 1) (0 # 1)), [Conc 52; Conc 28]) (* r325f 3178 5141 *);
   (Simple (Arr (7909848919721825 # 2) ((-138099652972749) # 140737488355328) (4259114290206669 # 16777216)), [Conc 0; Conc 53]) (* r325b 3179 5142 *);
   (Simple (Arr (20000000000 # 1) (0 # 1) (0 # 1)), [Conc 8; Conc 51]) (* r326f 3181 5143 *);
   (Simple (Arr (114010282448718128 # 1) ((-179623526570627) # 140737488355328) (5232344271924835 # 16777216)), [Conc 0; Conc 53]) (* r326b 3182 5144 *);
   (Falloff (Arr (63459999999999988616658944 # 1) ((-2625598582756999) # 562949953421312) (15815520 # 1)) (Arr (17100000 # 1) (712694641031381 # 562949953421312) (6085139729743873 # 536870912)) [Decay (954763121002545 # 4503599627370496) ((-10200) # 1); Decay (3548836506367951 # 4503599627370496) (178405961588245 # 178405961588244985132285746181186892047843328)] 36, [Conc 10; Conc 0]) (* r327f 3190 5145 *);
   (Falloff (Arr (5300601881693923280695590912 # 1) ((-1223305013138253) # 281474976710656) (5547738685439131 # 33554432)) (Arr (748843641740895 # 524288) (445841598755937 # 281474976710656) (2698689564081741 # 16777216)) [Decay (954763121002545 # 4503599627370496) ((-10200) # 1); Decay (3548836506367951 # 4503599627370496) (178405961588245 # 178405961588244985132285746181186892047843328)] 36, [Conc 76]) (* r327b 3196 5146 *);
   (Simple (Arr (169999999999999978894262272 # 1) ((-5980780305148019) # 1125899906842624) (7303852376614503 # 268435456)), [Conc 76; Conc 67]) (* r328f 3198 5147 *);
   (Simple (Arr (9955916647084896280379392 # 1) ((-696571637792627) # 140737488355328) (1636648269158967 # 4194304)), [Conc 47; Conc 24]) (* r328b 3200 5148 *);
   (Simple (Arr (700000000000 # 1) ((-2751699372323373) # 4503599627370496) (2955190043725005 # 134217728)), [Conc 76; Conc 67]) (* r329f 3202 5149 *);
   (Simple (Arr (1138719709325736 # 1) ((-414080876517287) # 281474976710656) (7883269441801259 # 134217728)), [Conc 44; Conc 55]) (* r329b 3204 5150 *);
   (Simple (Arr (5190000000000 # 1) ((-5674535530486825) # 4503599627370496) (7440987031653581 # 536870912)), [Conc 76; Conc 67]) (* r330 3206 5151 *);
   (Simple (Arr (392000000 # 1) (0 # 1) (0 # 1)), [Conc 51; Conc 76]) (* r331f 3208 5152 *);
   (Simple (Arr (8352427100663013 # 4096) ((-68668802169829) # 140737488355328) (2453582178767969 # 8388608)), [Conc 10; Conc 28]) (* r331b 3209 5153 *);
   (Simple (Arr (90000000000 # 1) (0 # 1) (0 # 1)), [Conc 76; Conc 0]) (* r332f 3211 5154 *);
   (Simple (Arr (1059958865093649 # 4096) (4042347820513 # 140737488355328) (2379003430769837 # 8388608)), [Conc 21; Conc 10]) (* r332b 3212 5155 *);
   (Simple (Arr (60000000000 # 1) (0 # 1) (0 # 1)), [Conc 76; Conc 0]) (* r333f 3214 5156 *);
   (Simple (Arr (3235181767095409 # 8388608) (158878926861871 # 281474976710656) (3200363158950657 # 33554432)), [Conc 21; Conc 88]) (* r333b 3215 5157 *);
   (Simple (Arr (30110000000 # 1) (0 # 1) (0 # 1)), [Conc 76; Conc 1]) (* r334f 3217 5158 *);
   (Simple (Arr (7673670685365895 # 8192) ((-10261595242523) # 140737488355328) (181601081477447 # 524288)), [Conc 45; Conc 10]) (* r334b 3218 5159 *);
   (Simple (Arr (960000000 # 1) (0 # 1) (0 # 1)), [Conc 76; Conc 76]) (* r335f 3220 5160 *);
   (Simple (Arr (7789226809438495 # 512) ((-10300065960975) # 17592186044416) (164733217640085 # 524288)), [Conc 53; Conc 10]) (* r335b 3221 5161 *);
   (Falloff (Arr (3750000000000000118547808256 # 1) ((-5404319552844595) # 1125899906842624) (7949600 # 1)) (Arr (100000000000000 # 1) (0 # 1) (0 # 1)) [Decay (3188548536178311 # 9007199254740992) (132 # 1); Decay (5818650718562681 # 9007199254740992) (1315 # 1); Grow (1 # 1) (5566 # 1)] 37, [Conc 31; Conc 0]) (* r336f 3229 5162 *);
   (Falloff (Arr (3536865248101328618773450789486592 # 1) ((-22385225478117) # 4398046511104) (4752463297798915 # 8388608)) (Arr (94316406616035442688 # 1) ((-326298169553357) # 1125899906842624) (2342888609821057 # 4194304)) [Decay (3188548536178311 # 9007199254740992) (132 # 1); Decay (5818650718562681 # 9007199254740992) (1315 # 1); Grow (1 # 1) (5566 # 1)] 37, [Conc 10]) (* r336b 3235 5163 *);
   (Simple (Arr (50000000000 # 1) (0 # 1) (0 # 1)), [Conc 31; Conc 44]) (* r337f 3237 5164 *);
   (Simple (Arr (8960972727693037 # 268435456) (33939186174919 # 35184372088832) (5524501635184787 # 16777216)), [Conc 69; Conc 52]) (* r337b 3238 5165 *);
   (Simple (Arr (20000000000 # 1) (0 # 1) (0 # 1)), [Conc 31; Conc 1]) (* r338f 3240 5166 *);
   (Simple (Arr (8843667801037113 # 8) ((-261648822751755) # 281474976710656) (7132189957754451 # 33554432)), [Conc 56; Conc 0]) (* r338b 3241 5167 *);
   (Simple (Arr (50000000000 # 1) (0 # 1) (6738803687424001 # 1073741824)), [Conc 31; Conc 67]) (* r339f 3243 5168 *);
   (Simple (Arr (2822145593082151 # 8388608) (6263120472299 # 8796093022208) (2690551372382495 # 4194304)), [Conc 69; Conc 47]) (* r339b 3244 5169 *);
   (Simple (Arr (490 # 1) (5 # 2) (5031640086609921 # 2147483648)), [Conc 31; Conc 21]) (* r340f 3246 5170 *);
   (Simple (Arr (4132392065613255 # 2147483648) (524533925507037 # 281474976710656) (268041039799247 # 2097152)), [Conc 10; Conc 0]) (* r340b 3247 5171 *);
   (Falloff (Arr (2450000000000 # 1) ((-5764607523034235) # 9007199254740992) (6977469651353601 # 33554432)) (Arr (800000000000000 # 1) ((-1170935903116329) # 2251799813685248) (7124880982016001 # 33554432)) [Decay (1 # 1) (10000000 # 1); Grow (1 # 1) (10000000 # 1)] 38, [Conc 10]) (* r341f 3255 5172 *);
   (Falloff (Arr (2871487853723679 # 524288) ((-234798030986551) # 2251799813685248) (2647276348900767 # 134217728)) (Arr (7325224116642039 # 4096) (141671786622715 # 9007199254740992) (3236921671550369 # 134217728)) [Decay (1 # 1) (10000000 # 1); Grow (1 # 1) (10000000 # 1)] 38, [Conc 88]) (* r341b 3261 5173 *);
   (Simple (Arr (739500 # 1) (5764607523034235 # 4503599627370496) (10342848 # 1)), [Conc 10; Conc 44]) (* r342f 3263 5174 *);
   (Simple (Arr (1707989683533977 # 1125899906842624) (369977017106063 # 140737488355328) (6785669594742453 # 33554432)), [Conc 69; Conc 74]) (* r342b 3265 5175 *);
   (Simple (Arr (2958000 # 1) (5764607523034235 # 4503599627370496) (10342848 # 1)), [Conc 10; Conc 44]) (* r343f 3267 5176 *);
   (Simple (Arr (6561387943654875 # 268435456) (268409304307155 # 281474976710656) (6145735490481835 # 67108864)), [Conc 0; Conc 56]) (* r343b 3269 5177 *);
   (Simple (Arr (5787829208612863 # 2199023255552) (4818851601286431 # 2251799813685248) (4790166287810561 # 67108864)), [Conc 10; Conc 1]) (* r344f 3271 5178 *);
   (Simple (Arr (2041108107463919 # 281474976710656) (376451040152281 # 140737488355328) (4664021999167611 # 536870912)), [Conc 45; Conc 31]) (* r344b 3273 5179 *);
   (Plog [((1000 # 1), (Arr (280 # 1) (57 # 25) (51965300 # 1))); ((2500 # 1), (Arr (7467 # 10) (54 # 25) (52509200 # 1))); ((10000 # 1), (Arr (1776 # 1) (51 # 25) (53011300 # 1))); ((100000 # 1), (Arr (2415 # 1) (2 # 1) (53178600 # 1))); ((1000000 # 1), (Arr (3210 # 1) (197 # 100) (53597000 # 1))); ((10000000 # 1), (Arr (7347 # 1) (189 # 100) (56902400 # 1)))], [Conc 10; Conc 1]) (* r345f 3300 5180 *);
   (Plog [((1000 # 1), (Arr (1158310 # 1) (141913 # 100000) (8634530 # 1))); ((2500 # 1), (Arr (3088960 # 1) (129913 # 100000) (9178450 # 1))); ((10000 # 1), (Arr (7347000 # 1) (117913 # 100000) (9680530 # 1))); ((100000 # 1), (Arr (9990420 # 1) (113913 # 100000) (9847890 # 1))); ((1000000 # 1), (Arr (13279200 # 1) (110913 # 100000) (10266300 # 1))); ((10000000 # 1), (Arr (30393200 # 1) (102913 # 100000) (13571600 # 1)))], [Conc 0; Conc 79]) (* r345b 3327 5181 *);
   (Plog [((1000 # 1), (Arr (789 # 500) (64 # 25) ((-3533390) # 1))); ((2500 # 1), (Arr (759 # 50) (57 # 25) ((-1222150) # 1))); ((10000 # 1), (Arr (3017 # 10) (48 # 25) (2502450 # 1))); ((100000 # 1), (Arr (7528 # 1) (31 # 20) (8811500 # 1))); ((1000000 # 1), (Arr (5101 # 1) (33 # 20) (14225600 # 1))); ((10000000 # 1), (Arr (1457 # 100) (49 # 20) (18731800 # 1)))], [Conc 10; Conc 1]) (* r346f 3354 5182 *);
   (Plog [((1000 # 1), (Arr (310107 # 50) (1527 # 800) (95372800 # 1))); ((2500 # 1), (Arr (298316 # 5) (1303 # 800) (97684100 # 1))); ((10000 # 1), (Arr (1185800 # 1) (203 # 160) (101409000 # 1))); ((100000 # 1), (Arr (29587900 # 1) (898749 # 1000000) (107718000 # 1))); ((1000000 # 1), (Arr (20048900 # 1) (998749 # 1000000) (113132000 # 1))); ((10000000 # 1), (Arr (286328 # 5) (1439 # 800) (117638000 # 1)))], [Conc 0; Conc 33]) (* r346b 3381 5183 *);
   (Plog [((1000 # 1), (Arr (4757 # 10) (42 # 25) ((-1379880) # 1))); ((2500 # 1), (Arr (4372 # 1) (7 # 5) (947676 # 1))); ((10000 # 1), (Arr (76480 # 1) (21 # 20) (4665160 # 1))); ((100000 # 1), (Arr (1277000 # 1) (73 # 100) (10790500 # 1))); ((1000000 # 1), (Arr (431200 # 1) (23 # 25) (15631400 # 1))); ((10000000 # 1), (Arr (825 # 1) (177 # 100) (19652200 # 1)))], [Conc 10; Conc 1]) (* r347f 3408 5184 *);
   (Plog [((1000 # 1), (Arr (873911 # 1000000) (251913 # 100000) (226534000 # 1))); ((2500 # 1), (Arr (803183 # 100000) (223913 # 100000) (228861000 # 1))); ((10000 # 1), (Arr (70251 # 500) (188913 # 100000) (232579000 # 1))); ((100000 # 1), (Arr (117299 # 50) (156913 # 100000) (238704000 # 1))); ((1000000 # 1), (Arr (19804 # 25) (175913 # 100000) (243545000 # 1))); ((10000000 # 1), (Arr (151561 # 100000) (260913 # 100000) (247566000 # 1)))], [Conc 69; Conc 51]) (* r347b 3435 5185 *);
   (Plog [((1000 # 1), (Arr (391300000000000000000000000000 # 1) ((-3563) # 500) (24367600 # 1))); ((2500 # 1), (Arr (106700000000000000000000000000 # 1) ((-6847) # 1000) (23045500 # 1))); ((10000 # 1), (Arr (164600000000000000000000000000 # 1) ((-6717) # 1000) (24359200 # 1))); ((100000 # 1), (Arr (13870000000000000000000000000 # 1) ((-6087) # 1000) (26560000 # 1))); ((1000000 # 1), (Arr (289200000000000000000000000 # 1) ((-661) # 125) (29518100 # 1))); ((10000000 # 1), (Arr (13670000000000000000000 # 1) ((-1877) # 500) (27375900 # 1)))], [Conc 10; Conc 1]) (* r348f 3462 5186 *);
   (Plog [((1000 # 1), (Arr (281568000000000000000000000000000000000 # 1) ((-836809) # 100000) (161593000 # 1))); ((2500 # 1), (Arr (76778300000000000000000000000000000000 # 1) ((-808909) # 100000) (160271000 # 1))); ((10000 # 1), (Arr (118442000000000000000000000000000000000 # 1) ((-795909) # 100000) (161584000 # 1))); ((100000 # 1), (Arr (9980460000000000000000000000000000000 # 1) ((-732909) # 100000) (163785000 # 1))); ((1000000 # 1), (Arr (208100000000000000000000000000000000 # 1) ((-653009) # 100000) (166743000 # 1))); ((10000000 # 1), (Arr (9836550000000000000000000000000 # 1) ((-499609) # 100000) (164601000 # 1)))], [Conc 11]) (* r348b 3489 5187 *);
   (Simple (Arr (10000 # 1) (2 # 1) (6738803687424001 # 268435456)), [Conc 10; Conc 47]) (* r349f 3491 5188 *);
   (Simple (Arr (716286237865253 # 8796093022208) (1485931000723111 # 562949953421312) (3647716085269407 # 33554432)), [Conc 69; Conc 76]) (* r349b 3492 5189 *);
   (Simple (Arr (100000000000 # 1) (0 # 1) (0 # 1)), [Conc 88; Conc 0]) (* r350f 3494 5190 *);
   (Simple (Arr (5725837098395265 # 128) ((-150794231220867) # 281474976710656) (3157825282064359 # 16777216)), [Conc 0; Conc 10]) (* r350b 3495 5191 *);
   (Simple (Arr (20000000000 # 1) (0 # 1) (0 # 1)), [Conc 88; Conc 1]) (* r351f 3497 5192 *);
   (Simple (Arr (35163612687604704 # 1) ((-83526258084377) # 70368744177664) (2408598131592463 # 8388608)), [Conc 0; Conc 33]) (* r351b 3498 5193 *);
   (Simple (Arr (10000000000 # 1) (0 # 1) (0 # 1)), [Conc 88; Conc 67]) (* r352f 3500 5194 *);
   (Simple (Arr (5491734131502375 # 16777216) (20339448790527 # 140737488355328) (5549028660050661 # 16777216)), [Conc 47; Conc 47]) (* r352b 3501 5195 *);
   (Simple (Arr (10000000000 # 1) (0 # 1) (0 # 1)), [Conc 0; Conc 79]) (* r353f 3503 5196 *);
   (Simple (Arr (2490620670850937 # 262144) (59002812943881 # 281474976710656) (2386340377435779 # 16777216)), [Conc 33; Conc 0]) (* r353b 3504 5197 *);
   (Plog [((100 # 1), (Arr (341000000000000000000000000000000000000000000000000000000000 # 1) ((-71) # 5) (350086000 # 1))); ((1000 # 1), (Arr (2620000000000000000000000000000000000000000000000000000000 # 1) ((-133) # 10) (356737000 # 1))); ((10000 # 1), (Arr (16500000000000000000000000000000000000000000000000000 # 1) ((-23) # 2) (354576000 # 1))); ((100000 # 1), (Arr (52300000000000000000000000000000000000000000 # 1) ((-89) # 10) (341024000 # 1))); ((1000000 # 1), (Arr (459000000000000000000000000000000 # 1) ((-28) # 5) (318245000 # 1))); ((10000000 # 1), (Arr (384000000000000000000 # 1) ((-103) # 50) (290644000 # 1)))], [Conc 80]) (* r354f 3531 5198 *);
   (Plog [((100 # 1), (Arr (12865700000000000000000000000000000000000000000000 # 1) ((-31081) # 2500) (299079000 # 1))); ((1000 # 1), (Arr (98850900000000000000000000000000000000000000000 # 1) ((-28831) # 2500) (305730000 # 1))); ((10000 # 1), (Arr (622535000000000000000000000000000000000000 # 1) ((-24331) # 2500) (303568000 # 1))); ((100000 # 1), (Arr (1973250000000000000000000000000000 # 1) ((-17831) # 2500) (290017000 # 1))); ((1000000 # 1), (Arr (17317800000000000000000 # 1) ((-9581) # 2500) (267238000 # 1))); ((10000000 # 1), (Arr (14488100000 # 1) ((-146199) # 500000) (239636000 # 1)))], [Conc 45; Conc 53]) (* r354b 3558 5199 *);
   (Plog [((100 # 1), (Arr (1200000000000000000000000000000000000000000000000000000 # 1) ((-129) # 10) (418424000 # 1))); ((1000 # 1), (Arr (518000000000000000000000000000000000000000000000000000000000 # 1) ((-14) # 1) (418008000 # 1))); ((10000 # 1), (Arr (1620000000000000000000000000000000000000000000000000000000000000000 # 1) ((-153) # 10) (440954000 # 1))); ((100000 # 1), (Arr (55500000000000000000000000000000000000000000000000000000000000000 # 1) ((-29) # 2) (444270000 # 1))); ((1000000 # 1), (Arr (15500000000000000000000000000000000000000000000000000000000 # 1) ((-123) # 10) (442533000 # 1))); ((10000000 # 1), (Arr (178000000000000000000000000000000000000000000000 # 1) ((-224) # 25) (422830000 # 1)))], [Conc 80]) (* r355f 3585 5200 *);
   (Plog [((100 # 1), (Arr (1556570000000000000000000000000000000000000 # 1) ((-56309) # 5000) (46481700 # 1))); ((1000 # 1), (Arr (671919000000000000000000000000000000000000000000 # 1) ((-61809) # 5000) (46066200 # 1))); ((10000 # 1), (Arr (2101370000000000000000000000000000000000000000000000000 # 1) ((-68309) # 5000) (69011700 # 1))); ((100000 # 1), (Arr (71991300000000000000000000000000000000000000000000000 # 1) ((-64309) # 5000) (72327500 # 1))); ((1000000 # 1), (Arr (20105700000000000000000000000000000000000000000 # 1) ((-53309) # 5000) (70591100 # 1))); ((10000000 # 1), (Arr (230891000000000000000000000000000000 # 1) ((-45761) # 6250) (50887900 # 1)))], [Conc 27; Conc 51]) (* r355b 3612 5201 *);
   (Plog [((100 # 1), (Arr (81000000000000000000000000000000000000000000000 # 1) ((-113) # 10) (464647000 # 1))); ((1000 # 1), (Arr (186000000000000000000000000000000000000000000000000000000 # 1) ((-27) # 2) (448685000 # 1))); ((10000 # 1), (Arr (4650000000000000000000000000000000000000000000000000000000000000 # 1) ((-15) # 1) (458662000 # 1))); ((100000 # 1), (Arr (446000000000000000000000000000000000000000000000000000000000000000 # 1) ((-149) # 10) (470051000 # 1))); ((1000000 # 1), (Arr (27900000000000000000000000000000000000000000000000000000000000 # 1) ((-67) # 5) (473128000 # 1))); ((10000000 # 1), (Arr (6170000000000000000000000000000000000000000000000000 # 1) ((-103) # 10) (459992000 # 1)))], [Conc 80]) (* r356f 3639 5202 *);
   (Plog [((100 # 1), (Arr (2481310000000000000000000000000000000 # 1) ((-495913) # 50000) (66798000 # 1))); ((1000 # 1), (Arr (5697820000000000000000000000000000000000000000 # 1) ((-121183) # 10000) (50836100 # 1))); ((10000 # 1), (Arr (142445000000000000000000000000000000000000000000000000 # 1) ((-136183) # 10000) (60812400 # 1))); ((100000 # 1), (Arr (13662500000000000000000000000000000000000000000000000000 # 1) ((-135183) # 10000) (72202100 # 1))); ((1000000 # 1), (Arr (854673000000000000000000000000000000000000000000000 # 1) ((-120183) # 10000) (75278200 # 1))); ((10000000 # 1), (Arr (189008000000000000000000000000000000000000 # 1) ((-445913) # 50000) (62142500 # 1)))], [Conc 1; Conc 30]) (* r356b 3666 5203 *);
   (Simple (Arr (20000000000 # 1) (0 # 1) (220915200 # 1)), [Conc 80; Conc 67]) (* r357f 3668 5204 *);
   (Simple (Arr (4795157347406491 # 67108864) (491239321335123 # 4503599627370496) ((-5541070752381029) # 1073741824)), [Conc 2; Conc 35]) (* r357b 3669 5205 *);
   (Simple (Arr (15000000000 # 1) (0 # 1) (209827600 # 1)), [Conc 80; Conc 67]) (* r358f 3671 5206 *);
   (Simple (Arr (2235127109441037 # 268435456) (2055813060028039 # 4503599627370496) (7283464307716269 # 536870912)), [Conc 2; Conc 58]) (* r358b 3672 5207 *);
   (Simple (Arr (6185412613216665 # 70368744177664) (6034823500676465 # 2251799813685248) (12175440 # 1)), [Conc 80; Conc 0]) (* r359f 3674 5208 *);
   (Simple (Arr (4601037498218289 # 576460752303423488) (3937823787510235 # 1125899906842624) (5917889714591011 # 134217728)), [Conc 21; Conc 58]) (* r359b 3676 5209 *);
   (Simple (Arr (1868290157916979 # 35184372088832) (6327557476455547 # 2251799813685248) (8412273269800961 # 268435456)), [Conc 80; Conc 0]) (* r360f 3678 5210 *);
   (Simple (Arr (8944443279340393 # 288230376151711744) (923261835181665 # 281474976710656) (8976428106683441 # 268435456)), [Conc 21; Conc 35]) (* r360b 3680 5211 *);
   (Simple (Arr (8511803295730237 # 9007199254740992) (7070651414971679 # 2251799813685248) (1221562599263437 # 33554432)), [Conc 80; Conc 0]) (* r361f 3682 5212 *);
   (Simple (Arr (158039524744659 # 4503599627370496) (1858250776198063 # 562949953421312) (4083366664076697 # 134217728)), [Conc 21; Conc 14]) (* r361b 3684 5213 *);
   (Simple (Arr (5045438957538509 # 70368744177664) (2859785763380265 # 1125899906842624) ((-6418256) # 1)), [Conc 80; Conc 1]) (* r362f 3686 5214 *);
   (Simple (Arr (2537943648965785 # 36028797018963968) (1832883128023893 # 562949953421312) (5924054024128609 # 67108864)), [Conc 45; Conc 58]) (* r362b 3688 5215 *);
   (Simple (Arr (6571652576259027 # 1152921504606846976) (3805541685128069 # 1125899906842624) ((-5378239222933095) # 536870912)), [Conc 80; Conc 1]) (* r363f 3690 5216 *);
   (Simple (Arr (5318871696639839 # 147573952589676412928) (2110189371561101 # 562949953421312) (3681669789308361 # 67108864)), [Conc 45; Conc 35]) (* r363b 3692 5217 *);
   (Simple (Arr (6859237316368159 # 1180591620717411303424) (4818851601286431 # 1125899906842624) ((-14895040) # 1)), [Conc 80; Conc 1]) (* r364f 3694 5218 *);
   (Simple (Arr (2755915295561413 # 1180591620717411303424) (76337435963935 # 17592186044416) (5623759805662531 # 134217728)), [Conc 45; Conc 14]) (* r364b 3696 5219 *);
   (Simple (Arr (2644525230407001 # 75557863725914323419136) (2961116754996101 # 562949953421312) (8395538573977191 # 268435456)), [Conc 80; Conc 2]) (* r365f 3698 5220 *);
   (Simple (Arr (8871654511890127 # 9671406556917033397649408) (6161561444789131 # 1125899906842624) ((-8445037445650637) # 2147483648)), [Conc 23; Conc 58]) (* r365b 3700 5221 *);
   (Simple (Arr (2941148875112251 # 73786976294838206464) (4841369599423283 # 1125899906842624) (8610506411606017 # 134217728)), [Conc 80; Conc 2]) (* r366f 3702 5222 *);
   (Simple (Arr (7937903563447353 # 1180591620717411303424) (4689554099547219 # 1125899906842624) ((-7470727531845267) # 8589934592)), [Conc 23; Conc 35]) (* r366b 3704 5223 *);
   (Simple (Arr (782175005290665 # 1208925819614629174706176) (5967269506265907 # 1125899906842624) (1478760273333453 # 33554432)), [Conc 80; Conc 2]) (* r367f 3706 5224 *);
   (Simple (Arr (2095886967811107 # 302231454903657293676544) (5467361248801005 # 1125899906842624) ((-3897156587375781) # 134217728)), [Conc 23; Conc 14]) (* r367b 3708 5225 *);
   (Simple (Arr (3462142213541069 # 281474976710656) (2871044762448691 # 1125899906842624) (4422339919872001 # 67108864)), [Conc 80; Conc 7]) (* r368f 3710 5226 *);
   (Simple (Arr (7124512537665429 # 140737488355328) (8321321723674389 # 4503599627370496) ((-4809865364099877) # 536870912)), [Conc 73; Conc 35]) (* r368b 3712 5227 *);
   (Simple (Arr (2308094809027379 # 281474976710656) (2871044762448691 # 1125899906842624) (44978000 # 1)), [Conc 80; Conc 7]) (* r369f 3714 5228 *);
   (Simple (Arr (5903804826697053 # 1125899906842624) (154467116599481 # 70368744177664) ((-8856380247586541) # 137438953472)), [Conc 73; Conc 58]) (* r369b 3716 5229 *);
   (Simple (Arr (2500000000 # 1) (0 # 1) (6738803687424001 # 67108864)), [Conc 80; Conc 7]) (* r370f 3718 5230 *);
   (Simple (Arr (2677905771586855 # 4096) ((-4555228356473149) # 4503599627370496) (2345500042660879 # 134217728)), [Conc 73; Conc 14]) (* r370b 3719 5231 *);
   (Simple (Arr (8727976077844021 # 9007199254740992) (7273313398203351 # 2251799813685248) (19489072 # 1)), [Conc 80; Conc 44]) (* r371f 3721 5232 *);
   (Simple (Arr (6133146629401543 # 18446744073709551616) (8256783727998017 # 2251799813685248) (2112523015184637 # 134217728)), [Conc 1; Conc 35]) (* r371b 3723 5233 *);
   (Simple (Arr (145 # 1) (5561945539802563 # 2251799813685248) (3665184 # 1)), [Conc 80; Conc 44]) (* r372f 3725 5234 *);
   (Simple (Arr (8912215905050205 # 1152921504606846976) (7327702738943563 # 2251799813685248) (7980658243295293 # 268435456)), [Conc 1; Conc 58]) (* r372b 3727 5235 *);
   (Simple (Arr (3447327532494841 # 2361183241434822606848) (1331376639841403 # 281474976710656) (7225768 # 1)), [Conc 80; Conc 44]) (* r373f 3729 5236 *);
   (Simple (Arr (2405068563372181 # 75557863725914323419136) (2734574483337059 # 562949953421312) ((-4947127495096373) # 1073741824)), [Conc 1; Conc 14]) (* r373b 3731 5237 *);
   (Simple (Arr (5944751508129055 # 18014398509481984) (3715469692580659 # 1125899906842624) (51421360 # 1)), [Conc 80; Conc 51]) (* r374f 3733 5238 *);
   (Simple (Arr (6285399335255525 # 18014398509481984) (114470284223655 # 35184372088832) (8376995496281621 # 134217728)), [Conc 28; Conc 35]) (* r374b 3735 5239 *);
   (Simple (Arr (2872215698351807 # 144115188075855872) (3794282686059643 # 1125899906842624) (31940656 # 1)), [Conc 80; Conc 51]) (* r375f 3737 5240 *);
   (Simple (Arr (3774716302797981 # 1152921504606846976) (1033251380827261 # 281474976710656) (2440998016877643 # 33554432)), [Conc 28; Conc 58]) (* r375b 3739 5241 *);
   (Simple (Arr (4692390523749867 # 2305843009213693952) (8038925334856335 # 2251799813685248) (8671717211766785 # 268435456)), [Conc 80; Conc 51]) (* r376f 3741 5242 *);
   (Simple (Arr (2462852689385281 # 18014398509481984) (1809474656207771 # 562949953421312) (1181558710219135 # 33554432)), [Conc 28; Conc 14]) (* r376b 3743 5243 *);
   (Simple (Arr (50000000 # 1) (0 # 1) (7524997450956801 # 134217728)), [Conc 80; Conc 30]) (* r377f 3745 5244 *);
   (Simple (Arr (2076561056028455 # 16777216) ((-62756424029207) # 1125899906842624) (6570209062124979 # 134217728)), [Conc 9; Conc 35]) (* r377b 3746 5245 *);
   (Simple (Arr (50000000 # 1) (0 # 1) (5840296529100801 # 134217728)), [Conc 80; Conc 30]) (* r378f 3748 5246 *);
   (Simple (Arr (322643420884443 # 16777216) (164193505321979 # 562949953421312) (2221790135554623 # 33554432)), [Conc 9; Conc 58]) (* r378b 3749 5247 *);
   (Plog [((100 # 1), (Arr (56900000000000000000000000000000000000000000000000000 # 1) ((-669) # 50) (188485000 # 1))); ((1000 # 1), (Arr (329000000000000000000000000000000000000000000000000000000 # 1) ((-353) # 25) (201372000 # 1))); ((10000 # 1), (Arr (8580000000000000000000000000000000000000000000000000000000 # 1) ((-354) # 25) (212309000 # 1))); ((100000 # 1), (Arr (53600000000000000000000000000000000000000000000000000000 # 1) ((-263) # 20) (217091000 # 1))); ((1000000 # 1), (Arr (1660000000000000000000000000000000000000000000000 # 1) ((-266) # 25) (210443000 # 1))); ((2000000 # 1), (Arr (826000000000000000000000000000000000000000000 # 1) ((-959) # 100) (205928000 # 1))); ((5000000 # 1), (Arr (10100000000000000000000000000000000000000 # 1) ((-403) # 50) (198485000 # 1))); ((10000000 # 1), (Arr (1100000000000000000000000000000000000 # 1) ((-171) # 25) (192041000 # 1)))], [Conc 58]) (* r379f 3784 5248 *);
   (Plog [((100 # 1), (Arr (35357300000000000000000000000000000000000000000000 # 1) ((-16619) # 1250) (84139400 # 1))); ((1000 # 1), (Arr (204439000000000000000000000000000000000000000000000000 # 1) ((-8772) # 625) (97026100 # 1))); ((10000 # 1), (Arr (5331560000000000000000000000000000000000000000000000000 # 1) ((-8797) # 625) (107963000 # 1))); ((100000 # 1), (Arr (33306700000000000000000000000000000000000000000000000 # 1) ((-32663) # 2500) (112745000 # 1))); ((1000000 # 1), (Arr (1031510000000000000000000000000000000000000000 # 1) ((-6597) # 625) (106097000 # 1))); ((2000000 # 1), (Arr (513272000000000000000000000000000000000000 # 1) ((-237631) # 25000) (101582000 # 1))); ((5000000 # 1), (Arr (6276080000000000000000000000000000000 # 1) ((-199381) # 25000) (94139100 # 1))); ((10000000 # 1), (Arr (683534000000000000000000000000000 # 1) ((-168881) # 25000) (87695800 # 1)))], [Conc 0; Conc 54]) (* r379b 3819 5249 *);
   (Plog [((100 # 1), (Arr (54000000000000000000000000000000000000000000000 # 1) ((-1163) # 100) (185447000 # 1))); ((1000 # 1), (Arr (1210000000000000000000000000000000000000000000000000 # 1) ((-251) # 20) (197652000 # 1))); ((10000 # 1), (Arr (2870000000000000000000000000000000000000000000000000000 # 1) ((-263) # 20) (212137000 # 1))); ((100000 # 1), (Arr (379000000000000000000000000000000000000000000000000000 # 1) ((-1251) # 100) (219911000 # 1))); ((1000000 # 1), (Arr (63300000000000000000000000000000000000000000000 # 1) ((-51) # 5) (215229000 # 1))); ((2000000 # 1), (Arr (38700000000000000000000000000000000000000000 # 1) ((-917) # 100) (211041000 # 1))); ((5000000 # 1), (Arr (508000000000000000000000000000000000000 # 1) ((-153) # 20) (203815000 # 1))); ((10000000 # 1), (Arr (51200000000000000000000000000000000 # 1) ((-641) # 100) (197409000 # 1)))], [Conc 58]) (* r380f 3854 5250 *);
   (Plog [((100 # 1), (Arr (1363840000000000000000000000000000000000000000 # 1) ((-30173) # 2500) (37337900 # 1))); ((1000 # 1), (Arr (30560100000000000000000000000000000000000000000000 # 1) ((-32473) # 2500) (49542600 # 1))); ((10000 # 1), (Arr (72485600000000000000000000000000000000000000000000000 # 1) ((-33973) # 2500) (64027600 # 1))); ((100000 # 1), (Arr (9572140000000000000000000000000000000000000000000000 # 1) ((-32373) # 2500) (71801500 # 1))); ((1000000 # 1), (Arr (1598720000000000000000000000000000000000000000 # 1) ((-13299) # 1250) (67119600 # 1))); ((2000000 # 1), (Arr (977419000000000000000000000000000000000000 # 1) ((-960923) # 100000) (62931400 # 1))); ((5000000 # 1), (Arr (12830200000000000000000000000000000000 # 1) ((-808923) # 100000) (55705600 # 1))); ((10000000 # 1), (Arr (1293120000000000000000000000000000 # 1) ((-684923) # 100000) (49299900 # 1)))], [Conc 0; Conc 77]) (* r380b 3889 5251 *);
   (Plog [((100 # 1), (Arr (5480000000000000000000000000000000000000000000 # 1) ((-1163) # 100) (185468000 # 1))); ((1000 # 1), (Arr (25400000000000000000000000000000000000000000000000 # 1) ((-1237) # 100) (194326000 # 1))); ((10000 # 1), (Arr (1650000000000000000000000000000000000000000000000000000 # 1) ((-67) # 5) (210581000 # 1))); ((100000 # 1), (Arr (18100000000000000000000000000000000000000000000000000000 # 1) ((-1331) # 100) (222304000 # 1))); ((1000000 # 1), (Arr (45800000000000000000000000000000000000000000000000 # 1) ((-283) # 25) (220555000 # 1))); ((2000000 # 1), (Arr (41100000000000000000000000000000000000000000000 # 1) ((-1033) # 100) (216873000 # 1))); ((5000000 # 1), (Arr (668000000000000000000000000000000000000000 # 1) ((-883) # 100) (210045000 # 1))); ((10000000 # 1), (Arr (65400000000000000000000000000000000000 # 1) ((-379) # 50) (203748000 # 1)))], [Conc 58]) (* r381f 3924 5252 *);
   (Plog [((100 # 1), (Arr (2241080000000000000000000000000000000000000000000 # 1) ((-61433) # 5000) (147570000 # 1))); ((1000 # 1), (Arr (10387500000000000000000000000000000000000000000000000 # 1) ((-65133) # 5000) (156428000 # 1))); ((10000 # 1), (Arr (674778000000000000000000000000000000000000000000000000000 # 1) ((-70283) # 5000) (172682000 # 1))); ((100000 # 1), (Arr (7402110000000000000000000000000000000000000000000000000000 # 1) ((-69833) # 5000) (184406000 # 1))); ((1000000 # 1), (Arr (18730200000000000000000000000000000000000000000000000 # 1) ((-59883) # 5000) (182657000 # 1))); ((2000000 # 1), (Arr (16808100000000000000000000000000000000000000000000 # 1) ((-54933) # 5000) (178975000 # 1))); ((5000000 # 1), (Arr (273183000000000000000000000000000000000000000 # 1) ((-948657) # 100000) (172147000 # 1))); ((10000000 # 1), (Arr (26745700000000000000000000000000000000000 # 1) ((-823657) # 100000) (165850000 # 1)))], [Conc 14]) (* r381b 3959 5253 *);
   (Plog [((100 # 1), (Arr (2650000000000000000000000000000000000 # 1) ((-443) # 50) (213463000 # 1))); ((1000 # 1), (Arr (35600000000000000000000000000000000000 # 1) ((-889) # 100) (213861000 # 1))); ((10000 # 1), (Arr (4140000000000000000000000000000000000000 # 1) ((-919) # 100) (217200000 # 1))); ((100000 # 1), (Arr (582000000000000000000000000000000000000000000 # 1) ((-517) # 50) (231358000 # 1))); ((1000000 # 1), (Arr (4260000000000000000000000000000000000000000000000 # 1) ((-553) # 50) (248772000 # 1))); ((2000000 # 1), (Arr (884000000000000000000000000000000000000000000000 # 1) ((-537) # 50) (250626000 # 1))); ((5000000 # 1), (Arr (2230000000000000000000000000000000000000000000 # 1) ((-246) # 25) (249383000 # 1))); ((10000000 # 1), (Arr (1700000000000000000000000000000000000000000 # 1) ((-883) # 100) (245756000 # 1)))], [Conc 58]) (* r382f 3994 5254 *);
   (Plog [((100 # 1), (Arr (17055600000000000000000000000000000000 # 1) ((-920741) # 100000) (183649000 # 1))); ((1000 # 1), (Arr (229125000000000000000000000000000000000 # 1) ((-923741) # 100000) (184046000 # 1))); ((10000 # 1), (Arr (26645400000000000000000000000000000000000 # 1) ((-953741) # 100000) (187385000 # 1))); ((100000 # 1), (Arr (3745800000000000000000000000000000000000000000 # 1) ((-53437) # 5000) (201544000 # 1))); ((1000000 # 1), (Arr (27417700000000000000000000000000000000000000000000 # 1) ((-57037) # 5000) (218958000 # 1))); ((2000000 # 1), (Arr (5689500000000000000000000000000000000000000000000 # 1) ((-55437) # 5000) (220811000 # 1))); ((5000000 # 1), (Arr (14352500000000000000000000000000000000000000000 # 1) ((-50937) # 5000) (219569000 # 1))); ((10000000 # 1), (Arr (10941300000000000000000000000000000000000000 # 1) ((-917741) # 100000) (215941000 # 1)))], [Conc 35]) (* r382b 4029 5255 *);
   (Simple (Arr (39000000000000000 # 1) ((-1) # 1) (8423504609280001 # 67108864)), [Conc 81]) (* r383f 4031 5256 *);
   (Simple (Arr (660125245297453 # 4194304) (99536343180075 # 2251799813685248) ((-6830513107793271) # 268435456)), [Conc 67; Conc 35]) (* r383b 4033 5257 *);
   (Simple (Arr (3125000000 # 1) (0 # 1) (79077600 # 1)), [Conc 81]) (* r384 4035 5258 *);
   (Plog [((1000 # 1), (Arr (526000000000000 # 1) ((-1637) # 1000) (3506190 # 1))); ((10000 # 1), (Arr (526000000000000 # 1) ((-1637) # 1000) (3506190 # 1))); ((100000 # 1), (Arr (528000000000000 # 1) ((-819) # 500) (3510380 # 1))); ((1000000 # 1), (Arr (1540000000000000 # 1) ((-1771) # 1000) (4686080 # 1))); ((10000000 # 1), (Arr (378000000000000000 # 1) ((-2429) # 1000) (12928600 # 1)))], [Conc 58; Conc 67]) (* r385f 4057 5259 *);
   (Plog [((1000 # 1), (Arr (479887000000000 # 1) ((-156657) # 100000) (104102000 # 1))); ((10000 # 1), (Arr (479887000000000 # 1) ((-156657) # 100000) (104102000 # 1))); ((100000 # 1), (Arr (481711000000000 # 1) ((-156757) # 100000) (104107000 # 1))); ((1000000 # 1), (Arr (1404990000000000 # 1) ((-170057) # 100000) (105282000 # 1))); ((10000000 # 1), (Arr (344862000000000000 # 1) ((-235857) # 100000) (113525000 # 1)))], [Conc 2; Conc 54]) (* r385b 4080 5260 *);
   (Plog [((1000 # 1), (Arr (64 # 125) (312 # 125) ((-1732180) # 1))); ((10000 # 1), (Arr (533 # 1000) (249 # 100) ((-1681970) # 1))); ((100000 # 1), (Arr (381 # 500) (1223 # 500) ((-1238460) # 1))); ((1000000 # 1), (Arr (223 # 25) (1073 # 500) (1966480 # 1))); ((10000000 # 1), (Arr (438 # 1) (1699 # 1000) (9748720 # 1)))], [Conc 58; Conc 67]) (* r386f 4103 5261 *);
   (Plog [((1000 # 1), (Arr (11866 # 625) (204243 # 100000) (55100200 # 1))); ((10000 # 1), (Arr (197643 # 10000) (203643 # 100000) (55150400 # 1))); ((100000 # 1), (Arr (3532 # 125) (199243 # 100000) (55593900 # 1))); ((1000000 # 1), (Arr (66153 # 200) (169243 # 100000) (58798800 # 1))); ((10000000 # 1), (Arr (81208 # 5) (124543 # 100000) (66581100 # 1)))], [Conc 2; Conc 77]) (* r386b 4126 5262 *);
   (Plog [((1000 # 1), (Arr (20500000000000000000000000000000000000000000000000000000000 # 1) ((-3199) # 250) (418526000 # 1))); ((10000 # 1), (Arr (3300000000000000000000000000000000000000000000000000 # 1) ((-5287) # 500) (410958000 # 1))); ((100000 # 1), (Arr (1310000000000000000000000000000000000000000 # 1) ((-7657) # 1000) (396060000 # 1))); ((1000000 # 1), (Arr (2160000000000000000000000000000000 # 1) ((-4989) # 1000) (380395000 # 1))); ((10000000 # 1), (Arr (94000000000000000000000000000 # 1) ((-3669) # 1000) (372471000 # 1)))], [Conc 37]) (* r387f 4149 5263 *);
   (Plog [((1000 # 1), (Arr (16975200000000000000000000000000000000000000000 # 1) ((-111823) # 10000) (61394600 # 1))); ((10000 # 1), (Arr (2732590000000000000000000000000000000000 # 1) ((-89603) # 10000) (53826200 # 1))); ((100000 # 1), (Arr (1084760000000000000000000000000 # 1) ((-60433) # 10000) (38928600 # 1))); ((1000000 # 1), (Arr (1788610000000000000000 # 1) ((-33753) # 10000) (23263300 # 1))); ((10000000 # 1), (Arr (77837500000000000 # 1) ((-20553) # 10000) (15340100 # 1)))], [Conc 51; Conc 32]) (* r387b 4172 5264 *);
   (Simple (Arr (125 # 1) (5591218937380471 # 2251799813685248) (1861880 # 1)), [Conc 37; Conc 1]) (* r388f 4174 5265 *);
   (Simple (Arr (987738052024455 # 4503599627370496) (107367729219563 # 35184372088832) (6466198755928775 # 67108864)), [Conc 45; Conc 60]) (* r388b 4176 5266 *);
   (Simple (Arr (980 # 1) (5471873547255153 # 2251799813685248) (21589440 # 1)), [Conc 37; Conc 0]) (* r389f 4178 5267 *);
   (Simple (Arr (5725744048723337 # 36028797018963968) (3490526184467861 # 1125899906842624) (447147739258271 # 8388608)), [Conc 21; Conc 60]) (* r389b 4180 5268 *);
   (Simple (Arr (513000000 # 1) (7602076171001397 # 36028797018963968) (5492125005250561 # 268435456)), [Conc 37; Conc 44]) (* r390f 4182 5269 *);
   (Simple (Arr (6712806077996667 # 137438953472) (477310426791337 # 562949953421312) (777175922155041 # 16777216)), [Conc 1; Conc 60]) (* r390b 4184 5270 *);
   (Simple (Arr (396000000 # 1) (0 # 1) (40936256 # 1)), [Conc 37; Conc 51]) (* r391f 4186 5271 *);
   (Simple (Arr (7796708388765607 # 67108864) (86450105458849 # 562949953421312) (5472154741828337 # 67108864)), [Conc 28; Conc 60]) (* r391b 4187 5272 *);
   (Simple (Arr (434000000 # 1) (0 # 1) (7255445303459841 # 268435456)), [Conc 37; Conc 50]) (* r392f 4189 5273 *);
   (Simple (Arr (5316545757043193 # 137438953472) (565051806124801 # 562949953421312) (1068292116067741 # 16777216)), [Conc 6; Conc 60]) (* r392b 4190 5274 *);
   (Simple (Arr (60300000000 # 1) (0 # 1) (202924000 # 1)), [Conc 37; Conc 67]) (* r393f 4192 5275 *);
   (Simple (Arr (4011688721158641 # 67108864) (1392522554700181 # 4503599627370496) (3468915968230101 # 536870912)), [Conc 2; Conc 60]) (* r393b 4193 5276 *);
   (Simple (Arr (17000000000 # 1) (0 # 1) (85604640 # 1)), [Conc 37; Conc 2]) (* r394f 4195 5277 *);
   (Simple (Arr (3337449492059089 # 4194304) (36752654232921 # 562949953421312) (3368512290932831 # 67108864)), [Conc 23; Conc 60]) (* r394b 4196 5278 *);
   (Simple (Arr (17000000000 # 1) (0 # 1) (85604640 # 1)), [Conc 37; Conc 7]) (* r395f 4198 5279 *);
   (Simple (Arr (5089394769568101 # 262144) ((-141348380797071) # 281474976710656) (1354278732596963 # 33554432)), [Conc 73; Conc 60]) (* r395b 4199 5280 *);
   (Simple (Arr (4953959590107545 # 281474976710656) (5584463537939415 # 2251799813685248) (6884811100651521 # 268435456)), [Conc 33; Conc 51]) (* r396f 4201 5281 *);
   (Simple (Arr (4368146530181367 # 262144) (348649980626169 # 281474976710656) (1360656879662955 # 8388608)), [Conc 60]) (* r396b 4203 5282 *);
   (Simple (Arr (120000000 # 1) (0 # 1) ((-4941789370777601) # 1073741824)), [Conc 60; Conc 67]) (* r397f 4205 5283 *);
   (Simple (Arr (408811602436321408 # 1) ((-462359698388689) # 281474976710656) (7527287270022587 # 67108864)), [Conc 83]) (* r397b 4206 5284 *);
   (Simple (Arr (18100000000 # 1) (0 # 1) (0 # 1)), [Conc 76; Conc 47]) (* r398f 4208 5285 *);
   (Simple (Arr (9384729297159631333752832 # 1) ((-168842486629699) # 70368744177664) (7217718423882819 # 16777216)), [Conc 38]) (* r398b 4209 5286 *);
   (Simple (Arr (13400000000 # 1) (0 # 1) (13807200 # 1)), [Conc 38; Conc 0]) (* r399f 4211 5287 *);
   (Simple (Arr (250137908024459 # 16777216) (395915967611423 # 562949953421312) (3138663639827261 # 33554432)), [Conc 21; Conc 61]) (* r399b 4212 5288 *);
   (Simple (Arr (5940000000 # 1) (0 # 1) (7815712 # 1)), [Conc 38; Conc 44]) (* r400f 4214 5289 *);
   (Simple (Arr (8332818705882889 # 2147483648) (377149248810705 # 562949953421312) (5482578642342385 # 67108864)), [Conc 1; Conc 61]) (* r400b 4215 5290 *);
   (Simple (Arr (9240 # 1) (3 # 2) ((-4321819431534593) # 1073741824)), [Conc 38; Conc 1]) (* r401f 4217 5291 *);
   (Simple (Arr (7827489526845913 # 70368744177664) (73945320343199 # 35184372088832) (4646769520558617 # 33554432)), [Conc 45; Conc 61]) (* r401b 4218 5292 *);
   (Simple (Arr (10050000000 # 1) (0 # 1) (5713943959961601 # 33554432)), [Conc 38; Conc 67]) (* r402f 4220 5293 *);
   (Simple (Arr (2293742741885689 # 33554432) (770746326114665 # 2251799813685248) (5863623795918385 # 268435456)), [Conc 2; Conc 61]) (* r402b 4221 5294 *);
   (Simple (Arr (3010000000 # 1) (0 # 1) (49873280 # 1)), [Conc 38; Conc 2]) (* r403f 4223 5295 *);
   (Simple (Arr (8108882319895935 # 8388608) (27686958212009 # 281474976710656) (8386047927042883 # 134217728)), [Conc 23; Conc 61]) (* r403b 4224 5296 *);
   (Simple (Arr (2608 # 1) (8016407336719483 # 4503599627370496) (24731624 # 1)), [Conc 38; Conc 51]) (* r404f 4226 5297 *);
   (Simple (Arr (5772213118344201 # 1099511627776) (1107122284740009 # 562949953421312) (1901770737033497 # 16777216)), [Conc 28; Conc 61]) (* r404b 4228 5298 *);
   (Simple (Arr (1740000000 # 1) (0 # 1) (4739625260154881 # 134217728)), [Conc 38; Conc 76]) (* r405f 4230 5299 *);
   (Simple (Arr (1398558366167263 # 131072) (12536116394585 # 140737488355328) (4887189407241679 # 33554432)), [Conc 53; Conc 61]) (* r405b 4231 5300 *);
   (Simple (Arr (1000000000 # 1) (0 # 1) (13807200 # 1)), [Conc 38; Conc 50]) (* r406f 4233 5301 *);
   (Simple (Arr (1313283773964651 # 2147483648) (145918267079015 # 140737488355328) (6608295296790493 # 67108864)), [Conc 6; Conc 61]) (* r406b 4234 5302 *);
   (Simple (Arr (3010000000 # 1) (0 # 1) (49873280 # 1)), [Conc 38; Conc 7]) (* r407f 4236 5303 *);
   (Simple (Arr (1545690180634683 # 65536) ((-528150998806083) # 1125899906842624) (7066138275565063 # 134217728)), [Conc 73; Conc 61]) (* r407b 4237 5304 *);
   (Simple (Arr (151000000 # 1) (0 # 1) (20125040 # 1)), [Conc 76; Conc 69]) (* r408f 4239 5305 *);
   (Simple (Arr (3720416774435399794688 # 1) ((-332756102647121) # 140737488355328) (1366178168209763 # 8388608)), [Conc 61]) (* r408b 4240 5306 *);
   (Simple (Arr (18100000000 # 1) (0 # 1) (0 # 1)), [Conc 30; Conc 47]) (* r409f 4242 5307 *);
   (Simple (Arr (541913141035494732201984 # 1) ((-32294352998973) # 17592186044416) (5936300767384853 # 16777216)), [Conc 84]) (* r409b 4243 5308 *);
   (Simple (Arr (40000000000 # 1) (0 # 1) (17572800 # 1)), [Conc 84; Conc 0]) (* r410f 4245 5309 *);
   (Simple (Arr (6135333077557895 # 274877906944) (734194203424761 # 562949953421312) (1302825736845709 # 16777216)), [Conc 21; Conc 17]) (* r410b 4246 5310 *);
   (Simple (Arr (5000000000 # 1) (0 # 1) (8041639066992641 # 1073741824)), [Conc 84; Conc 44]) (* r411f 4248 5311 *);
   (Simple (Arr (3602126400295797 # 2199023255552) (178856871156005 # 140737488355328) (8283896119616307 # 134217728)), [Conc 1; Conc 17]) (* r411b 4249 5312 *);
   (Simple (Arr (26900000 # 1) (3422735716801577 # 4503599627370496) ((-1422560) # 1)), [Conc 84; Conc 1]) (* r412f 4251 5313 *);
   (Simple (Arr (5714211456019499 # 35184372088832) (276205098943183 # 140737488355328) (2037364224866555 # 16777216)), [Conc 45; Conc 17]) (* r412b 4253 5314 *);
   (Simple (Arr (2608 # 1) (8016407336719483 # 4503599627370496) (24731624 # 1)), [Conc 84; Conc 51]) (* r413f 4255 5315 *);
   (Simple (Arr (2964324977032233 # 1125899906842624) (1445400520553313 # 562949953421312) (3144176738791949 # 33554432)), [Conc 28; Conc 17]) (* r413b 4257 5316 *);
   (Simple (Arr (2800000000 # 1) (0 # 1) (56902400 # 1)), [Conc 84; Conc 2]) (* r414f 4259 5317 *);
   (Simple (Arr (3873789247689183 # 8589934592) (196826076118685 # 281474976710656) (6692021502182091 # 134217728)), [Conc 23; Conc 17]) (* r414b 4260 5318 *);
   (Simple (Arr (1000000000 # 1) (0 # 1) (13807200 # 1)), [Conc 84; Conc 50]) (* r415f 4262 5319 *);
   (Simple (Arr (2697752015233767 # 8796093022208) (921951304129395 # 562949953421312) (5289565826240373 # 67108864)), [Conc 6; Conc 17]) (* r415b 4263 5320 *);
   (Simple (Arr (3010000000 # 1) (0 # 1) (49873280 # 1)), [Conc 84; Conc 7]) (* r416f 4265 5321 *);
   (Simple (Arr (1587581024909243 # 134217728) (148405472820561 # 1125899906842624) (8857358668929701 # 268435456)), [Conc 73; Conc 17]) (* r416b 4266 5322 *);
   (Simple (Arr (1000000000 # 1) (0 # 1) (33472000 # 1)), [Conc 84; Conc 30]) (* r417f 4268 5323 *);
   (Simple (Arr (634474185404891 # 268435456) (438181690160655 # 562949953421312) (1414961823563771 # 16777216)), [Conc 9; Conc 17]) (* r417b 4269 5324 *);
   (Simple (Arr (602600000 # 1) (0 # 1) (13807200 # 1)), [Conc 84; Conc 14]) (* r418f 4271 5325 *);
   (Simple (Arr (2489047295491557 # 274877906944) (321803140484905 # 281474976710656) (5360039675593063 # 67108864)), [Conc 80; Conc 17]) (* r418b 4272 5326 *);
   (Simple (Arr (3010000000 # 1) (0 # 1) (49873280 # 1)), [Conc 84; Conc 36]) (* r419f 4274 5327 *);
   (Simple (Arr (6965730806327481 # 274877906944) (2605561380416261 # 2251799813685248) (3736878909782929 # 134217728)), [Conc 15; Conc 17]) (* r419b 4275 5328 *);
   (Simple (Arr (10050000000 # 1) (0 # 1) (5713943959961601 # 33554432)), [Conc 84; Conc 67]) (* r420f 4277 5329 *);
   (Simple (Arr (4711814176818313 # 137438953472) (4247718538735813 # 4503599627370496) (2354823654872073 # 1073741824)), [Conc 2; Conc 17]) (* r420b 4278 5330 *);
   (Simple (Arr (3010000000 # 1) (0 # 1) (49873280 # 1)), [Conc 84; Conc 34]) (* r421f 4280 5331 *);
   (Simple (Arr (7542284453210783 # 2147483648) (318526934389915 # 562949953421312) (7488646089835091 # 134217728)), [Conc 13; Conc 17]) (* r421b 4281 5332 *);
   (Simple (Arr (1700000000 # 1) (0 # 1) (4739625260154881 # 134217728)), [Conc 84; Conc 76]) (* r422f 4283 5333 *);
   (Simple (Arr (175429947398877 # 33554432) (48552837673955 # 70368744177664) (8455649343933273 # 67108864)), [Conc 53; Conc 17]) (* r422b 4284 5334 *);
   (Simple (Arr (151000000 # 1) (0 # 1) (20125040 # 1)), [Conc 30; Conc 69]) (* r423f 4286 5335 *);
   (Simple (Arr (107741501996675920 # 1) ((-1350851155409431) # 1125899906842624) (8970050498272287 # 134217728)), [Conc 17]) (* r423b 4287 5336 *);
   (Falloff (Arr (7520000000000 # 1) (0 # 1) (6007362703851521 # 33554432)) (Arr (4380000000000000000000 # 1) ((-7070651414971679) # 4503599627370496) (350995760 # 1)) [Decay (2458965396544291 # 4503599627370496) (178405961588245 # 178405961588244985132285746181186892047843328); Decay (8178536923304821 # 18014398509481984) (2510 # 1)] 39, [Conc 39]) (* r424f 4294 5337 *);
   (Falloff (Arr (1327833330061207 # 274877906944) (208623410084289 # 281474976710656) ((-184430182199905) # 1048576)) (Arr (5762221554876887 # 2048) ((-3732676853623055) # 4503599627370496) ((-1053321384321289) # 268435456)) [Decay (2458965396544291 # 4503599627370496) (178405961588245 # 178405961588244985132285746181186892047843328); Decay (8178536923304821 # 18014398509481984) (2510 # 1)] 39, [Conc 50; Conc 51]) (* r424b 4300 5338 *);
   (Simple (Arr (6324 # 1) (2 # 1) ((-731946393849037) # 268435456)), [Conc 39; Conc 1]) (* r425f 4302 5339 *);
   (Simple (Arr (1270778877280119 # 281474976710656) (1489540672535657 # 562949953421312) (2986664099418969 # 33554432)), [Conc 45; Conc 62]) (* r425b 4303 5340 *);
   (Simple (Arr (7721 # 1) (588282701325271 # 281474976710656) (14158656 # 1)), [Conc 39; Conc 0]) (* r426f 4305 5341 *);
   (Simple (Arr (4588658658838483 # 9007199254740992) (1597421940595791 # 562949953421312) (2893575134272541 # 67108864)), [Conc 21; Conc 62]) (* r426b 4307 5342 *);
   (Simple (Arr (775000 # 1) (6124895493223875 # 4503599627370496) (9414000 # 1)), [Conc 39; Conc 44]) (* r427f 4309 5343 *);
   (Simple (Arr (1056318147022033 # 35184372088832) (1167701755797533 # 562949953421312) (2182499976079245 # 67108864)), [Conc 1; Conc 62]) (* r427b 4311 5344 *);
   (Simple (Arr (7809241753860439 # 9007199254740992) (1694479359798149 # 562949953421312) (6789344715079681 # 134217728)), [Conc 39; Conc 2]) (* r428f 4313 5345 *);
   (Simple (Arr (2379584125783031 # 144115188075855872) (887396923278001 # 281474976710656) (3333676792077561 # 268435456)), [Conc 23; Conc 62]) (* r428b 4315 5346 *);
   (Simple (Arr (5620492334958379 # 18014398509481984) (3512807709348987 # 1125899906842624) (7407068386426881 # 134217728)), [Conc 39; Conc 7]) (* r429f 4317 5347 *);
   (Simple (Arr (5223336296859723 # 36028797018963968) (3034537851210577 # 1125899906842624) (7717219327265815 # 1073741824)), [Conc 73; Conc 62]) (* r429b 4319 5348 *);
   (Simple (Arr (1746897809343139 # 1208925819614629174706176) (1612851616552059 # 281474976710656) (23848800 # 1)), [Conc 39; Conc 51]) (* r430f 4321 5349 *);
   (Simple (Arr (3336491613762237 # 19342813113834066795298816) (3355715171088003 # 562949953421312) (2070249837047043 # 33554432)), [Conc 28; Conc 62]) (* r430b 4323 5350 *);
   (Simple (Arr (41000000000 # 1) (0 # 1) (6304993200046081 # 33554432)), [Conc 39; Conc 67]) (* r431f 4325 5351 *);
   (Simple (Arr (4439357297014577 # 268435456) (435254303725279 # 1125899906842624) ((-6074668233115209) # 536870912)), [Conc 2; Conc 62]) (* r431b 4326 5352 *);
   (Simple (Arr (602000000 # 1) (0 # 1) (17045616 # 1)), [Conc 39; Conc 50]) (* r432f 4328 5353 *);
   (Simple (Arr (6001124685601161 # 274877906944) (608613638649919 # 562949953421312) (1709141878710973 # 33554432)), [Conc 6; Conc 62]) (* r432b 4329 5354 *);
   (Simple (Arr (5000000000 # 1) (0 # 1) (74014960 # 1)), [Conc 39; Conc 85]) (* r433f 4331 5355 *);
   (Simple (Arr (5185908852217081 # 524288) ((-1154859473035921) # 2251799813685248) (7834836300412667 # 268435456)), [Conc 40; Conc 62]) (* r433b 4332 5356 *);
   (Simple (Arr (177 # 4) (5854679515581645 # 2251799813685248) (58199440 # 1)), [Conc 39; Conc 25]) (* r434f 4334 5357 *);
   (Simple (Arr (2796599167011617 # 8796093022208) (4512358640234779 # 2251799813685248) (3412028706074093 # 134217728)), [Conc 70; Conc 62]) (* r434b 4336 5358 *);
   (Simple (Arr (10000000000 # 1) (0 # 1) (74014960 # 1)), [Conc 39; Conc 71]) (* r435f 4338 5359 *);
   (Simple (Arr (8012191866482609 # 1073741824) (30762881129481 # 35184372088832) (2263639733517249 # 16777216)), [Conc 48; Conc 62]) (* r435b 4339 5360 *);
   (Simple (Arr (16000000000000 # 1) (0 # 1) (106692000 # 1)), [Conc 62]) (* r436f 4341 5361 *);
   (Simple (Arr (2880436764375879 # 137438953472) (691752884928105 # 562949953421312) (553228702315855 # 8388608)), [Conc 51; Conc 24]) (* r436b 4342 5362 *);
   (Simple (Arr (24100000000 # 1) (0 # 1) (0 # 1)), [Conc 62; Conc 50]) (* r437f 4344 5363 *);
   (Simple (Arr (6441241793358021 # 131072) (8578314523749 # 17592186044416) (658878367785501 # 2097152)), [Conc 24; Conc 39]) (* r437b 4345 5364 *);
   (Simple (Arr (3090595244283003 # 562949953421312) (3152519739159347 # 1125899906842624) (24526608 # 1)), [Conc 62; Conc 24]) (* r438f 4347 5365 *);
   (Simple (Arr (1314693589608807 # 4398046511104) (2700830758234187 # 1125899906842624) (3938980732021941 # 67108864)), [Conc 47; Conc 39]) (* r438b 4349 5366 *);
   (Simple (Arr (1260000000 # 1) (0 # 1) (4772757711618049 # 134217728)), [Conc 62; Conc 54]) (* r439f 4351 5367 *);
   (Simple (Arr (6133681066010237 # 524288) ((-12212357193003) # 140737488355328) (8704773763057103 # 134217728)), [Conc 32; Conc 39]) (* r439b 4352 5368 *);
   (Simple (Arr (2000000000 # 1) (0 # 1) (0 # 1)), [Conc 62; Conc 67]) (* r440f 4354 5369 *);
   (Simple (Arr (4144267122328485232640 # 1) ((-318497082634455) # 140737488355328) (334166449686385 # 2097152)), [Conc 85]) (* r440b 4355 5370 *);
   (Simple (Arr (1000000000 # 1) (0 # 1) (48785440 # 1)), [Conc 85; Conc 24]) (* r441f 4357 5371 *);
   (Simple (Arr (3529614503545689 # 32768) ((-1029118717443623) # 1125899906842624) (5117225160012653 # 134217728)), [Conc 47; Conc 40]) (* r441b 4358 5372 *);
   (Simple (Arr (2800000000 # 1) (0 # 1) (56902400 # 1)), [Conc 85; Conc 54]) (* r442f 4360 5373 *);
   (Simple (Arr (3370572295365901 # 65536) ((-337564297031287) # 562949953421312) (5552625278181357 # 134217728)), [Conc 32; Conc 40]) (* r442b 4361 5374 *);
   (Simple (Arr (154700000000000000000 # 1) ((-9) # 2) (0 # 1)), [Conc 85; Conc 85]) (* r443 4363 5375 *);
   (Simple (Arr (20000000000 # 1) (0 # 1) (0 # 1)), [Conc 63; Conc 1]) (* r444f 4364 5376 *);
   (Simple (Arr (21999675972949616099328 # 1) ((-299782660648109) # 140737488355328) (1610390210731289 # 8388608)), [Conc 40]) (* r444b 4365 5377 *);
   (Simple (Arr (100000000 # 1) (0 # 1) (33304640 # 1)), [Conc 50; Conc 24]) (* r445f 4367 5378 *);
   (Simple (Arr (2234784316894600192 # 1) ((-872567448357181) # 562949953421312) (3089514992942823 # 33554432)), [Conc 63]) (* r445b 4368 5379 *);
   (Simple (Arr (50000000 # 1) (0 # 1) (2092000 # 1)), [Conc 63; Conc 67]) (* r446f 4370 5380 *);
   (Simple (Arr (2492952310072677 # 4294967296) (47571999402429 # 70368744177664) (3490254961833547 # 16777216)), [Conc 2; Conc 87]) (* r446b 4371 5381 *);
   (Simple (Arr (10000000000 # 1) (0 # 1) (8803123883671553 # 268435456)), [Conc 87; Conc 0]) (* r447f 4373 5382 *);
   (Simple (Arr (2529481446721231 # 2) ((-6072616149071) # 8796093022208) (4267144719523425 # 134217728)), [Conc 63]) (* r447b 4374 5383 *);
   (Simple (Arr (60000000000 # 1) (0 # 1) (90290720 # 1)), [Conc 85]) (* r448f 4376 5384 *);
   (Simple (Arr (2138402375611081 # 512) ((-1031325650692503) # 1125899906842624) (6313797733847311 # 134217728)), [Conc 18]) (* r448b 4377 5385 *);
   (Simple (Arr (15000000000000 # 1) (0 # 1) (5829065189621761 # 67108864)), [Conc 18]) (* r449 4379 5386 *);
   (Simple (Arr (700000000 # 1) (0 # 1) (0 # 1)), [Conc 18; Conc 67]) (* r450f 4380 5387 *);
   (Simple (Arr (101037222245024284672 # 1) ((-265558042119249) # 140737488355328) (1324550645749985 # 8388608)), [Conc 86]) (* r450b 4381 5388 *);
   (Simple (Arr (40000000000 # 1) (0 # 1) (77738720 # 1)), [Conc 86]) (* r451f 4383 5389 *);
   (Simple (Arr (3575387660004127 # 4398046511104) (151011876050135 # 140737488355328) (8181757816562195 # 33554432)), [Conc 1; Conc 19]) (* r451b 4384 5390 *);
   (Simple (Arr (20000000000000000 # 1) (0 # 1) (169452000 # 1)), [Conc 19]) (* r452f 4386 5391 *);
   (Simple (Arr (2607057507930313 # 549755813888) (5409421029205729 # 2251799813685248) ((-5408630602577667) # 268435456)), [Conc 1; Conc 41]) (* r452b 4387 5392 *);
   (Simple (Arr (125000000 # 1) (0 # 1) (49789600 # 1)), [Conc 24; Conc 71]) (* r453f 4389 5393 *);
   (Simple (Arr (108833142715746871148544 # 1) ((-1585473959916117) # 562949953421312) (2351403950397261 # 16777216)), [Conc 41]) (* r453b 4390 5394 *);
   (Simple (Arr (100000000000 # 1) (0 # 1) (58576000 # 1)), [Conc 41]) (* r454f 4392 5395 *);
   (Simple (Arr (8171425434115307 # 268435456) (23220846530085 # 35184372088832) (5252683626601651 # 67108864)), [Conc 64]) (* r454b 4393 5396 *);
   (Simple (Arr (150000000 # 1) (0 # 1) (20083200 # 1)), [Conc 72; Conc 69]) (* r455f 4395 5397 *);
   (Simple (Arr (54182757251501408256 # 1) ((-74891418934085) # 35184372088832) (5602710974938953 # 67108864)), [Conc 64]) (* r455b 4396 5398 *);
   (Simple (Arr (150000000 # 1) (0 # 1) (149452480 # 1)), [Conc 27; Conc 3]) (* r456f 4398 5399 *);
   (Simple (Arr (767980654386627712 # 1) ((-248329992316193) # 140737488355328) (5976693694230285 # 67108864)), [Conc 64]) (* r456b 4399 5400 *);
   (Simple (Arr (100000000000 # 1) (0 # 1) (0 # 1)), [Conc 42; Conc 0]) (* r457f 4401 5401 *);
   (Simple (Arr (8393956581364215 # 32) (71662468003567 # 140737488355328) (3551243670265759 # 8388608)), [Conc 87]) (* r457b 4402 5402 *);
   (Simple (Arr (100000000000 # 1) (0 # 1) (0 # 1)), [Conc 20; Conc 0]) (* r458f 4404 5403 *);
   (Simple (Arr (6330829713371498 # 1) (12668419649 # 140737488355328) (7043437786650515 # 16777216)), [Conc 87]) (* r458b 4405 5404 *);
   (Falloff (Arr (6143000000000000211101015737130524396825764628808224210944 # 1) ((-1698701484448809) # 140737488355328) (5292768729497601 # 16777216)) (Arr (100000000000000 # 1) (0 # 1) (261500000 # 1)) [Decay (990791918021509 # 4503599627370496) (8280000000 # 1); Decay (3512807709348987 # 4503599627370496) (3860605227447091 # 8796093022208); Grow (1 # 1) (670000000 # 1)] 40, [Conc 87]) (* r459f 4413 5405 *);
   (Falloff (Arr (6692783624184196082057075666713578863731933184 # 1) ((-1436768559347385) # 140737488355328) (1081493006168899 # 4194304)) (Arr (7666657637745021 # 70368744177664) (16370807818839 # 8796093022208) (6840890558355991 # 33554432)) [Decay (990791918021509 # 4503599627370496) (8280000000 # 1); Decay (3512807709348987 # 4503599627370496) (3860605227447091 # 8796093022208); Grow (1 # 1) (670000000 # 1)] 40, [Conc 69; Conc 6]) (* r459b 4419 5406 *);
   (Simple (Arr (30000000000 # 1) (0 # 1) (0 # 1)), [Conc 50; Conc 47]) (* r460f 4421 5407 *);
   (Simple (Arr (354366147204049076224 # 1) ((-120943528634169) # 140737488355328) (901278547852071 # 2097152)), [Conc 87]) (* r460b 4422 5408 *);
   (Simple (Arr (10000000000 # 1) (0 # 1) (0 # 1)), [Conc 51; Conc 71]) (* r461f 4424 5409 *);
   (Simple (Arr (2416166106451643727872 # 1) ((-199717259479253) # 140737488355328) (3240277427741753 # 8388608)), [Conc 87]) (* r461b 4425 5410 *);
   (Simple (Arr (10000000000 # 1) (0 # 1) (6977469651353601 # 33554432)), [Conc 87; Conc 67]) (* r462f 4427 5411 *);
   (Simple (Arr (3890853434159987 # 16777216) ((-129953791977589) # 9007199254740992) ((-7446277619269779) # 1073741824)), [Conc 2; Conc 20]) (* r462b 4428 5412 *);
   (Simple (Arr (20500000000 # 1) (0 # 1) (217568000 # 1)), [Conc 87; Conc 67]) (* r463f 4430 5413 *);
   (Simple (Arr (6015789705349505 # 524288) ((-4715540965347107) # 9007199254740992) ((-1785233493874789) # 2147483648)), [Conc 2; Conc 42]) (* r463b 4431 5414 *);
   (Simple (Arr (8686141859430399 # 549755813888) (8106479329266893 # 4503599627370496) (3907856 # 1)), [Conc 87; Conc 1]) (* r464f 4433 5415 *);
   (Simple (Arr (2852225444520653 # 4398046511104) (1151201417990153 # 562949953421312) (1341888712363917 # 16777216)), [Conc 45; Conc 20]) (* r464b 4435 5416 *);
   (Simple (Arr (5270000 # 1) (4368491638549381 # 4503599627370496) (7125161765502977 # 1073741824)), [Conc 87; Conc 1]) (* r465f 4437 5417 *);
   (Simple (Arr (700698737631179 # 134217728) (397353758314779 # 562949953421312) (5314427467440017 # 67108864)), [Conc 45; Conc 42]) (* r465b 4439 5418 *);
   (Simple (Arr (5426837550981447 # 1125899906842624) (5854679515581645 # 2251799813685248) (58199440 # 1)), [Conc 87; Conc 2]) (* r466f 4441 5419 *);
   (Simple (Arr (5942205198281925 # 1125899906842624) (5272940407167989 # 2251799813685248) (586866839271257 # 134217728)), [Conc 23; Conc 20]) (* r466b 4443 5420 *);
   (Simple (Arr (1674776111428403 # 70368744177664) (2871044762448691 # 1125899906842624) (68994160 # 1)), [Conc 87; Conc 2]) (* r467f 4445 5421 *);
   (Simple (Arr (345773338665941 # 549755813888) (4013953623141201 # 2251799813685248) (6253252804077771 # 536870912)), [Conc 23; Conc 42]) (* r467b 4447 5422 *);
   (Simple (Arr (4846647255236607 # 17592186044416) (2758454771764429 # 1125899906842624) (6356938145136641 # 536870912)), [Conc 87; Conc 44]) (* r468f 4449 5423 *);
   (Simple (Arr (345432531149715 # 562949953421312) (6222271764661727 # 2251799813685248) (5177370695381003 # 268435456)), [Conc 1; Conc 20]) (* r468b 4451 5424 *);
   (Simple (Arr (980 # 1) (5471873547255153 # 2251799813685248) (5334886252544001 # 268435456)), [Conc 87; Conc 44]) (* r469f 4453 5425 *);
   (Simple (Arr (7413983377225249 # 140737488355328) (314427435940345 # 140737488355328) (1597248753315161 # 67108864)), [Conc 1; Conc 42]) (* r469b 4455 5426 *);
   (Simple (Arr (650 # 1) (5404319552844595 # 2251799813685248) (18706664 # 1)), [Conc 87; Conc 0]) (* r470f 4457 5427 *);
   (Simple (Arr (2776285855881049 # 1125899906842624) (773093581147559 # 281474976710656) (8591100239741417 # 268435456)), [Conc 21; Conc 20]) (* r470b 4459 5428 *);
   (Simple (Arr (5849401859768319 # 8796093022208) (2859785763380265 # 1125899906842624) (28267104 # 1)), [Conc 87; Conc 0]) (* r471f 4461 5429 *);
   (Simple (Arr (4284462820015757 # 70368744177664) (2676801914876995 # 1125899906842624) (5106334224302995 # 134217728)), [Conc 21; Conc 42]) (* r471b 4463 5430 *);
   (Simple (Arr (6963645887825355 # 9223372036854775808) (3895613677675479 # 1125899906842624) (22932504 # 1)), [Conc 87; Conc 51]) (* r472f 4465 5431 *);
   (Simple (Arr (2987086927733149 # 576460752303423488) (3704139025920603 # 1125899906842624) (3027996365766235 # 67108864)), [Conc 28; Conc 20]) (* r472b 4467 5432 *);
   (Simple (Arr (8337928321316717 # 18446744073709551616) (8219069319951155 # 2251799813685248) (8034900263305217 # 268435456)), [Conc 87; Conc 51]) (* r473f 4469 5433 *);
   (Simple (Arr (5395022364665699 # 72057594037927936) (836215402887355 # 281474976710656) (3261548923953075 # 67108864)), [Conc 28; Conc 42]) (* r473b 4471 5434 *);
   (Simple (Arr (548000000 # 1) (0 # 1) (20920000 # 1)), [Conc 87; Conc 50]) (* r474f 4473 5435 *);
   (Simple (Arr (4907557018911161 # 4294967296) (95716093697155 # 140737488355328) (82102423177551 # 2097152)), [Conc 6; Conc 20]) (* r474b 4474 5436 *);
   (Simple (Arr (217000000 # 1) (0 # 1) (27020272 # 1)), [Conc 87; Conc 50]) (* r475f 4476 5437 *);
   (Simple (Arr (366419393733921 # 33554432) (48132588226479 # 281474976710656) (5600923300337287 # 134217728)), [Conc 6; Conc 42]) (* r475b 4477 5438 *);
   (Simple (Arr (5426837550981447 # 1125899906842624) (5854679515581645 # 2251799813685248) (58199440 # 1)), [Conc 87; Conc 7]) (* r476f 4479 5439 *);
   (Simple (Arr (2265369717788479 # 17592186044416) (7990285487719453 # 4503599627370496) ((-366521406103287) # 67108864)), [Conc 73; Conc 20]) (* r476b 4481 5440 *);
   (Simple (Arr (1674776111428403 # 70368744177664) (2871044762448691 # 1125899906842624) (68994160 # 1)), [Conc 87; Conc 7]) (* r477f 4483 5441 *);
   (Simple (Arr (8436511895445975 # 549755813888) (2736155959832883 # 2251799813685248) (3894456792666351 # 2147483648)), [Conc 73; Conc 42]) (* r477b 4485 5442 *);
   (Simple (Arr (5937362789990399 # 1099511627776) (4278419646001971 # 2251799813685248) (4776127113461761 # 67108864)), [Conc 87; Conc 47]) (* r478f 4487 5443 *);
   (Simple (Arr (6269455355337591 # 1099511627776) (534850069051149 # 281474976710656) (2864174914826701 # 134217728)), [Conc 24; Conc 20]) (* r478b 4489 5444 *);
   (Simple (Arr (205 # 2) (5 # 2) (77111120 # 1)), [Conc 87; Conc 47]) (* r479f 4491 5445 *);
   (Simple (Arr (2872128136981943 # 1099511627776) (4483483647277699 # 2251799813685248) (6378407173581091 # 268435456)), [Conc 24; Conc 42]) (* r479b 4492 5446 *);
   (Simple (Arr (1629000000000 # 1) ((-3242591731706757) # 18014398509481984) (5709732207656961 # 33554432)), [Conc 20]) (* r480f 4494 5447 *);
   (Simple (Arr (629049698996071 # 16) ((-193965094975231) # 281474976710656) (1397908274973797 # 8388608)), [Conc 42]) (* r480b 4496 5448 *);
   (Simple (Arr (6542094185267199 # 137438953472) (1733885856537641 # 1125899906842624) (145184800 # 1)), [Conc 51; Conc 3]) (* r481f 4498 5449 *);
   (Simple (Arr (3522186706894915 # 128) (45322743933937 # 281474976710656) (550026218871729 # 8388608)), [Conc 20]) (* r481b 4500 5450 *);
   (Simple (Arr (6816972092211199 # 4398046511104) (4548635623644201 # 2251799813685248) (6435557521489921 # 268435456)), [Conc 50; Conc 69]) (* r482f 4502 5451 *);
   (Simple (Arr (6075196305093567 # 2048) (29518223768501 # 35184372088832) (3349718153231487 # 33554432)), [Conc 20]) (* r482b 4504 5452 *);
   (Simple (Arr (150000000 # 1) (0 # 1) (49789600 # 1)), [Conc 24; Conc 47]) (* r483f 4506 5453 *);
   (Simple (Arr (1205735646125731872768 # 1) ((-158828580186665) # 70368744177664) (2452729829235165 # 16777216)), [Conc 42]) (* r483b 4507 5454 *);
   (Simple (Arr (840000000000000 # 1) (0 # 1) (179912000 # 1)), [Conc 43]) (* r484f 4509 5455 *);
   (Simple (Arr (4511553747212809 # 17592186044416) (614518902865991 # 281474976710656) (1538895488861479 # 16777216)), [Conc 1; Conc 55]) (* r484b 4510 5456 *);
   (Simple (Arr (900000000000000 # 1) (0 # 1) (6738803687424001 # 1073741824)), [Conc 90]) (* r485f 4512 5457 *);
   (Simple (Arr (7298073201350919 # 2199023255552) (327198911697821 # 140737488355328) (4566211803996465 # 33554432)), [Conc 1; Conc 24]) (* r485b 4513 5458 *)].

(** Production rates of the species as combinations of rates of reactions, src/equations/ideal_gas_mix/mechanism/AramcoMech_woC3H4_91spec.cpp:5460-6199 *)
Definition aramco91_production : list (list (Z * N)) :=
  [[((-1)%Z, 0%N); (1%Z, 1%N); (1%Z, 2%N); ((-1)%Z, 3%N); (1%Z, 4%N); ((-1)%Z, 5%N); (2%Z, 8%N); ((-2)%Z, 9%N); ((-1)%Z, 12%N); (1%Z, 13%N); ((-1)%Z, 14%N); (1%Z, 15%N); ((-1)%Z, 16%N); (1%Z, 17%N); ((-1)%Z, 18%N); (1%Z, 19%N); ((-1)%Z, 20%N); (1%Z, 21%N); ((-1)%Z, 22%N); (1%Z, 23%N); (1%Z, 24%N); ((-1)%Z, 25%N); ((-1)%Z, 38%N); (1%Z, 39%N); ((-1)%Z, 40%N); (1%Z, 41%N); (1%Z, 52%N); ((-1)%Z, 53%N); (1%Z, 54%N); ((-1)%Z, 55%N); (1%Z, 58%N); ((-1)%Z, 59%N); ((-1)%Z, 62%N); (1%Z, 63%N); (1%Z, 66%N); ((-1)%Z, 67%N); (1%Z, 70%N); ((-1)%Z, 82%N); (1%Z, 83%N); ((-1)%Z, 94%N); (1%Z, 94%N); ((-1)%Z, 95%N); (1%Z, 95%N); ((-1)%Z, 112%N); (1%Z, 113%N); ((-1)%Z, 134%N); (1%Z, 135%N); ((-1)%Z, 140%N); (1%Z, 141%N); (1%Z, 150%N); ((-1)%Z, 151%N); (1%Z, 158%N); ((-1)%Z, 160%N); (1%Z, 160%N); ((-1)%Z, 161%N); (1%Z, 169%N); ((-1)%Z, 170%N); ((-1)%Z, 179%N); (1%Z, 180%N); ((-1)%Z, 183%N); (1%Z, 184%N); ((-1)%Z, 189%N); (1%Z, 190%N); (1%Z, 219%N); ((-1)%Z, 220%N); ((-1)%Z, 221%N); (1%Z, 222%N); ((-1)%Z, 223%N); (1%Z, 224%N); ((-1)%Z, 241%N); (1%Z, 242%N); ((-1)%Z, 243%N); (1%Z, 244%N); (1%Z, 257%N); ((-1)%Z, 258%N); (1%Z, 259%N); ((-1)%Z, 260%N); ((-1)%Z, 265%N); (1%Z, 265%N); ((-1)%Z, 266%N); (1%Z, 266%N); (2%Z, 267%N); (1%Z, 268%N); (1%Z, 269%N); (1%Z, 276%N); ((-1)%Z, 277%N); ((-1)%Z, 296%N); (1%Z, 297%N); ((-1)%Z, 308%N); (1%Z, 309%N); (1%Z, 312%N); ((-1)%Z, 313%N); (1%Z, 314%N); ((-1)%Z, 315%N); (1%Z, 316%N); ((-1)%Z, 317%N); (1%Z, 318%N); ((-1)%Z, 329%N); (1%Z, 330%N); (2%Z, 333%N); (2%Z, 334%N); ((-1)%Z, 335%N); (1%Z, 336%N); ((-1)%Z, 337%N); (1%Z, 338%N); (1%Z, 343%N); ((-1)%Z, 344%N); ((-1)%Z, 347%N); (1%Z, 348%N); (1%Z, 349%N); ((-1)%Z, 350%N); (1%Z, 351%N); ((-1)%Z, 352%N); (1%Z, 353%N); ((-1)%Z, 354%N); ((-1)%Z, 359%N); (1%Z, 360%N); ((-1)%Z, 361%N); (1%Z, 362%N); ((-1)%Z, 381%N); (1%Z, 382%N); (1%Z, 383%N); ((-1)%Z, 384%N); (1%Z, 385%N); ((-1)%Z, 386%N); (1%Z, 391%N); ((-1)%Z, 392%N); ((-1)%Z, 393%N); (1%Z, 394%N); (1%Z, 395%N); ((-1)%Z, 396%N); ((-1)%Z, 405%N); (1%Z, 406%N); ((-1)%Z, 451%N); (1%Z, 452%N); ((-1)%Z, 471%N); (1%Z, 472%N); ((-1)%Z, 473%N); (1%Z, 474%N); ((-1)%Z, 495%N); (1%Z, 496%N); (1%Z, 517%N); ((-1)%Z, 518%N); (1%Z, 537%N); ((-1)%Z, 538%N); ((-1)%Z, 539%N); (1%Z, 540%N); ((-1)%Z, 541%N); (1%Z, 542%N); (1%Z, 556%N); ((-1)%Z, 557%N); (1%Z, 558%N); (1%Z, 560%N); (1%Z, 563%N); ((-1)%Z, 564%N); ((-1)%Z, 567%N); (1%Z, 568%N); ((-1)%Z, 571%N); (1%Z, 572%N); (1%Z, 575%N); ((-1)%Z, 576%N); (1%Z, 581%N); ((-1)%Z, 582%N); (1%Z, 583%N); ((-1)%Z, 584%N); ((-1)%Z, 597%N); (1%Z, 598%N); ((-1)%Z, 599%N); (1%Z, 600%N); ((-1)%Z, 601%N); (1%Z, 602%N); (1%Z, 625%N); ((-1)%Z, 626%N); (1%Z, 627%N); ((-1)%Z, 628%N); ((-1)%Z, 629%N); (1%Z, 630%N); (1%Z, 635%N); ((-1)%Z, 638%N); (1%Z, 639%N); ((-1)%Z, 640%N); (1%Z, 641%N); ((-1)%Z, 646%N); (1%Z, 647%N); (1%Z, 650%N); ((-1)%Z, 651%N); (1%Z, 654%N); ((-1)%Z, 655%N); (1%Z, 660%N); ((-1)%Z, 661%N); (1%Z, 664%N); ((-1)%Z, 665%N); (1%Z, 666%N); ((-1)%Z, 667%N); ((-1)%Z, 674%N); (1%Z, 674%N); ((-1)%Z, 675%N); (1%Z, 675%N); (1%Z, 676%N); ((-1)%Z, 677%N); ((-1)%Z, 680%N); (1%Z, 680%N); ((-1)%Z, 681%N); (1%Z, 681%N); ((-1)%Z, 692%N); (1%Z, 693%N); ((-1)%Z, 694%N); (1%Z, 695%N); ((-1)%Z, 696%N); (1%Z, 697%N); (1%Z, 732%N); ((-1)%Z, 733%N); (1%Z, 734%N); ((-1)%Z, 735%N); ((-1)%Z, 751%N); (1%Z, 752%N); ((-1)%Z, 771%N); (1%Z, 772%N); ((-1)%Z, 793%N); (1%Z, 794%N); ((-1)%Z, 825%N); (1%Z, 826%N); ((-1)%Z, 866%N); (1%Z, 867%N); ((-1)%Z, 885%N); (1%Z, 886%N); ((-1)%Z, 887%N); (1%Z, 888%N); ((-1)%Z, 911%N); (1%Z, 912%N); ((-1)%Z, 913%N); (1%Z, 914%N)] (* H 5460 *);
   [(1%Z, 0%N); ((-1)%Z, 1%N); (1%Z, 2%N); ((-1)%Z, 3%N); ((-1)%Z, 4%N); (1%Z, 5%N); (2%Z, 6%N); ((-2)%Z, 7%N); (1%Z, 12%N); ((-1)%Z, 13%N); ((-1)%Z, 14%N); (1%Z, 15%N); (2%Z, 22%N); ((-2)%Z, 23%N); (1%Z, 26%N); ((-1)%Z, 27%N); ((-1)%Z, 28%N); (1%Z, 29%N); (2%Z, 34%N); ((-2)%Z, 35%N); (2%Z, 36%N); ((-2)%Z, 37%N); (1%Z, 38%N); ((-1)%Z, 39%N); (1%Z, 42%N); ((-1)%Z, 43%N); ((-1)%Z, 44%N); (1%Z, 45%N); ((-1)%Z, 46%N); (1%Z, 47%N); ((-1)%Z, 52%N); (1%Z, 53%N); ((-1)%Z, 54%N); (1%Z, 55%N); (1%Z, 56%N); ((-1)%Z, 57%N); (1%Z, 64%N); ((-1)%Z, 65%N); ((-1)%Z, 68%N); (1%Z, 69%N); (1%Z, 70%N); ((-1)%Z, 80%N); (1%Z, 81%N); (1%Z, 86%N); ((-1)%Z, 87%N); (1%Z, 88%N); ((-1)%Z, 89%N); (1%Z, 90%N); ((-1)%Z, 91%N); ((-1)%Z, 92%N); (2%Z, 92%N); ((-2)%Z, 93%N); (1%Z, 93%N); (1%Z, 94%N); ((-1)%Z, 95%N); (1%Z, 96%N); ((-1)%Z, 97%N); (1%Z, 98%N); ((-1)%Z, 99%N); (1%Z, 100%N); ((-1)%Z, 101%N); (1%Z, 102%N); ((-1)%Z, 103%N); (1%Z, 104%N); ((-1)%Z, 105%N); (1%Z, 106%N); ((-1)%Z, 107%N); ((-1)%Z, 138%N); (1%Z, 139%N); (1%Z, 142%N); ((-1)%Z, 143%N); ((-1)%Z, 148%N); (1%Z, 149%N); ((-1)%Z, 158%N); ((-1)%Z, 159%N); (1%Z, 159%N); (1%Z, 161%N); (1%Z, 162%N); (1%Z, 165%N); (2%Z, 166%N); ((-1)%Z, 199%N); (1%Z, 200%N); (1%Z, 201%N); ((-1)%Z, 202%N); (1%Z, 205%N); ((-1)%Z, 206%N); ((-1)%Z, 213%N); (1%Z, 214%N); (1%Z, 215%N); ((-1)%Z, 216%N); (1%Z, 225%N); ((-1)%Z, 226%N); ((-1)%Z, 227%N); (1%Z, 228%N); ((-1)%Z, 229%N); (1%Z, 230%N); ((-1)%Z, 245%N); (1%Z, 246%N); (1%Z, 247%N); ((-1)%Z, 248%N); ((-1)%Z, 253%N); (1%Z, 254%N); ((-1)%Z, 255%N); (1%Z, 256%N); ((-1)%Z, 257%N); (1%Z, 258%N); ((-1)%Z, 259%N); (1%Z, 260%N); ((-1)%Z, 261%N); (1%Z, 262%N); ((-1)%Z, 263%N); (1%Z, 264%N); (1%Z, 268%N); (1%Z, 269%N); (1%Z, 272%N); ((-1)%Z, 273%N); (1%Z, 280%N); ((-1)%Z, 281%N); (1%Z, 296%N); ((-1)%Z, 297%N); ((-1)%Z, 300%N); (1%Z, 301%N); (1%Z, 302%N); ((-1)%Z, 303%N); ((-1)%Z, 314%N); (1%Z, 315%N); (1%Z, 318%N); (1%Z, 331%N); ((-1)%Z, 332%N); ((-1)%Z, 339%N); (1%Z, 340%N); ((-1)%Z, 343%N); (1%Z, 344%N); ((-1)%Z, 351%N); (1%Z, 352%N); (1%Z, 363%N); ((-1)%Z, 364%N); ((-1)%Z, 365%N); (1%Z, 366%N); (1%Z, 397%N); ((-1)%Z, 398%N); (1%Z, 417%N); ((-1)%Z, 418%N); (1%Z, 427%N); ((-1)%Z, 428%N); (1%Z, 429%N); ((-1)%Z, 430%N); (1%Z, 433%N); ((-1)%Z, 434%N); (1%Z, 437%N); ((-1)%Z, 438%N); (1%Z, 439%N); ((-1)%Z, 440%N); (1%Z, 443%N); ((-1)%Z, 444%N); ((-1)%Z, 449%N); (1%Z, 450%N); (1%Z, 475%N); ((-1)%Z, 476%N); ((-1)%Z, 477%N); (1%Z, 478%N); ((-1)%Z, 489%N); (1%Z, 490%N); ((-1)%Z, 491%N); (1%Z, 492%N); (1%Z, 497%N); ((-1)%Z, 498%N); (1%Z, 513%N); ((-1)%Z, 514%N); (1%Z, 525%N); (1%Z, 532%N); (1%Z, 545%N); ((-1)%Z, 546%N); ((-1)%Z, 547%N); (1%Z, 548%N); ((-1)%Z, 549%N); (1%Z, 550%N); ((-1)%Z, 555%N); (1%Z, 559%N); ((-1)%Z, 577%N); (1%Z, 578%N); ((-1)%Z, 579%N); (1%Z, 580%N); ((-1)%Z, 581%N); (1%Z, 582%N); ((-1)%Z, 583%N); (1%Z, 584%N); ((-1)%Z, 585%N); (1%Z, 586%N); (1%Z, 589%N); ((-1)%Z, 590%N); ((-1)%Z, 591%N); (1%Z, 592%N); (1%Z, 623%N); ((-1)%Z, 624%N); ((-1)%Z, 642%N); (1%Z, 643%N); ((-1)%Z, 650%N); (1%Z, 651%N); ((-1)%Z, 662%N); (1%Z, 663%N); ((-1)%Z, 664%N); (1%Z, 665%N); ((-1)%Z, 666%N); (1%Z, 667%N); ((-1)%Z, 668%N); (1%Z, 669%N); ((-1)%Z, 670%N); (1%Z, 671%N); ((-1)%Z, 676%N); (1%Z, 677%N); (1%Z, 686%N); ((-1)%Z, 687%N); ((-1)%Z, 698%N); (1%Z, 699%N); ((-1)%Z, 700%N); (1%Z, 701%N); ((-1)%Z, 702%N); (1%Z, 703%N); (1%Z, 716%N); ((-1)%Z, 717%N); (1%Z, 718%N); ((-1)%Z, 719%N); (1%Z, 720%N); ((-1)%Z, 721%N); (1%Z, 742%N); ((-1)%Z, 749%N); (1%Z, 750%N); (1%Z, 753%N); ((-1)%Z, 754%N); (1%Z, 773%N); ((-1)%Z, 774%N); ((-1)%Z, 775%N); (1%Z, 776%N); (1%Z, 795%N); ((-1)%Z, 796%N); ((-1)%Z, 797%N); (1%Z, 798%N); ((-1)%Z, 823%N); (1%Z, 824%N); (1%Z, 827%N); ((-1)%Z, 828%N); ((-1)%Z, 860%N); (1%Z, 861%N); (1%Z, 870%N); (1%Z, 873%N); ((-1)%Z, 874%N); (1%Z, 875%N); ((-1)%Z, 876%N); ((-1)%Z, 899%N); (1%Z, 900%N); ((-1)%Z, 901%N); (1%Z, 902%N); (1%Z, 907%N); ((-1)%Z, 908%N); (1%Z, 909%N); ((-1)%Z, 910%N); (1%Z, 939%N); ((-1)%Z, 940%N); (1%Z, 941%N); ((-1)%Z, 942%N)] (* OH 5500 *);
   [(1%Z, 16%N); ((-1)%Z, 17%N); (1%Z, 18%N); ((-1)%Z, 19%N); (1%Z, 20%N); ((-1)%Z, 21%N); ((-1)%Z, 22%N); (1%Z, 23%N); (1%Z, 24%N); ((-1)%Z, 25%N); ((-1)%Z, 26%N); (1%Z, 27%N); ((-1)%Z, 28%N); (1%Z, 29%N); ((-2)%Z, 30%N); (2%Z, 31%N); ((-2)%Z, 32%N); (2%Z, 33%N); (1%Z, 40%N); ((-1)%Z, 41%N); (1%Z, 42%N); ((-1)%Z, 43%N); (1%Z, 44%N); ((-1)%Z, 45%N); (1%Z, 46%N); ((-1)%Z, 47%N); ((-1)%Z, 56%N); (1%Z, 57%N); (1%Z, 60%N); ((-1)%Z, 61%N); ((-1)%Z, 70%N); (1%Z, 74%N); ((-1)%Z, 75%N); ((-1)%Z, 146%N); (1%Z, 147%N); ((-1)%Z, 156%N); (1%Z, 157%N); (1%Z, 163%N); ((-1)%Z, 164%N); ((-1)%Z, 165%N); (1%Z, 171%N); ((-1)%Z, 172%N); ((-1)%Z, 181%N); (1%Z, 182%N); (1%Z, 185%N); ((-1)%Z, 186%N); (1%Z, 187%N); ((-1)%Z, 188%N); ((-1)%Z, 191%N); (1%Z, 192%N); ((-1)%Z, 205%N); (1%Z, 206%N); ((-1)%Z, 207%N); (1%Z, 208%N); ((-1)%Z, 211%N); (1%Z, 212%N); (1%Z, 231%N); ((-1)%Z, 232%N); ((-1)%Z, 233%N); (1%Z, 234%N); ((-1)%Z, 249%N); (1%Z, 250%N); ((-1)%Z, 272%N); (1%Z, 273%N); ((-1)%Z, 274%N); (1%Z, 275%N); ((-1)%Z, 292%N); (1%Z, 293%N); (1%Z, 367%N); ((-1)%Z, 368%N); ((-1)%Z, 371%N); (1%Z, 372%N); ((-1)%Z, 397%N); (1%Z, 398%N); (1%Z, 401%N); ((-1)%Z, 402%N); ((-1)%Z, 413%N); (1%Z, 414%N); (1%Z, 423%N); ((-1)%Z, 424%N); (1%Z, 425%N); ((-1)%Z, 426%N); (1%Z, 435%N); ((-1)%Z, 436%N); (1%Z, 441%N); ((-1)%Z, 442%N); ((-1)%Z, 453%N); (1%Z, 454%N); (1%Z, 479%N); ((-1)%Z, 480%N); ((-1)%Z, 483%N); (1%Z, 484%N); ((-1)%Z, 503%N); (1%Z, 504%N); (1%Z, 505%N); ((-1)%Z, 506%N); (1%Z, 523%N); ((-1)%Z, 524%N); (1%Z, 530%N); ((-1)%Z, 531%N); (1%Z, 533%N); ((-1)%Z, 534%N); (1%Z, 587%N); ((-1)%Z, 588%N); ((-1)%Z, 603%N); (1%Z, 603%N); ((-1)%Z, 604%N); (1%Z, 604%N); (1%Z, 609%N); ((-1)%Z, 610%N); ((-1)%Z, 623%N); (1%Z, 624%N); (1%Z, 688%N); ((-1)%Z, 689%N); (1%Z, 690%N); ((-1)%Z, 691%N); ((-1)%Z, 704%N); (1%Z, 705%N); ((-1)%Z, 706%N); (1%Z, 707%N); ((-1)%Z, 708%N); (1%Z, 709%N); (1%Z, 743%N); ((-1)%Z, 744%N); (1%Z, 745%N); ((-1)%Z, 746%N); (1%Z, 759%N); ((-1)%Z, 760%N); ((-1)%Z, 761%N); (1%Z, 762%N); (1%Z, 777%N); ((-1)%Z, 778%N); ((-1)%Z, 779%N); (1%Z, 780%N); ((-1)%Z, 801%N); (1%Z, 802%N); (1%Z, 813%N); ((-1)%Z, 814%N); ((-1)%Z, 829%N); (1%Z, 830%N); (1%Z, 835%N); ((-1)%Z, 836%N); (1%Z, 864%N); ((-1)%Z, 865%N); (1%Z, 895%N); ((-1)%Z, 896%N); (1%Z, 897%N); ((-1)%Z, 898%N); ((-1)%Z, 903%N); (1%Z, 904%N); ((-1)%Z, 905%N); (1%Z, 906%N)] (* HO2 5545 *);
   [(1%Z, 48%N); ((-1)%Z, 49%N); (1%Z, 50%N); ((-1)%Z, 51%N); (1%Z, 52%N); ((-1)%Z, 53%N); (1%Z, 54%N); ((-1)%Z, 55%N); (1%Z, 56%N); ((-1)%Z, 57%N); (1%Z, 66%N); ((-1)%Z, 67%N); (1%Z, 70%N); ((-1)%Z, 82%N); (1%Z, 83%N); ((-1)%Z, 102%N); (1%Z, 102%N); ((-1)%Z, 103%N); (1%Z, 103%N); (1%Z, 114%N); ((-1)%Z, 115%N); ((-1)%Z, 122%N); (1%Z, 122%N); ((-1)%Z, 123%N); (1%Z, 123%N); (1%Z, 154%N); ((-1)%Z, 155%N); (1%Z, 158%N); (1%Z, 160%N); (1%Z, 267%N); (1%Z, 269%N); (1%Z, 270%N); ((-1)%Z, 271%N); ((-1)%Z, 325%N); (1%Z, 325%N); ((-1)%Z, 326%N); (1%Z, 326%N); ((-1)%Z, 327%N); (1%Z, 328%N); (1%Z, 333%N); ((-1)%Z, 355%N); (1%Z, 356%N); (1%Z, 515%N); ((-1)%Z, 516%N); (1%Z, 543%N); ((-1)%Z, 544%N); (1%Z, 560%N); ((-1)%Z, 883%N); (1%Z, 884%N); ((-1)%Z, 933%N); (1%Z, 934%N)] (* CO2 5572 *);
   [(1%Z, 261%N); ((-1)%Z, 262%N); ((-1)%Z, 263%N); (1%Z, 264%N); ((-1)%Z, 265%N); (1%Z, 266%N); ((-1)%Z, 267%N); ((-1)%Z, 268%N); ((-1)%Z, 269%N); ((-1)%Z, 270%N); (1%Z, 271%N)] (* HCOH 5582 *);
   [(1%Z, 211%N); ((-1)%Z, 212%N); (1%Z, 213%N); ((-1)%Z, 214%N)] (* HOCH2O2H 5585 *);
   [(1%Z, 173%N); ((-1)%Z, 174%N); ((-1)%Z, 175%N); (1%Z, 176%N); (1%Z, 195%N); ((-1)%Z, 196%N); ((-1)%Z, 197%N); (1%Z, 198%N); (1%Z, 203%N); ((-1)%Z, 204%N); ((-1)%Z, 215%N); (1%Z, 216%N); ((-1)%Z, 217%N); (1%Z, 218%N); ((-1)%Z, 219%N); (1%Z, 220%N); ((-1)%Z, 221%N); (1%Z, 222%N); ((-1)%Z, 223%N); (1%Z, 224%N); ((-1)%Z, 225%N); (1%Z, 226%N); ((-1)%Z, 227%N); (1%Z, 228%N); ((-1)%Z, 229%N); (1%Z, 230%N); ((-1)%Z, 231%N); (1%Z, 232%N); ((-1)%Z, 233%N); (1%Z, 234%N); ((-1)%Z, 235%N); (1%Z, 236%N); ((-1)%Z, 237%N); (1%Z, 237%N); ((-1)%Z, 238%N); (1%Z, 238%N); (1%Z, 239%N); ((-1)%Z, 240%N); ((-1)%Z, 288%N); (1%Z, 289%N); (1%Z, 294%N); (1%Z, 300%N); ((-1)%Z, 301%N); (1%Z, 375%N); ((-1)%Z, 376%N); ((-1)%Z, 411%N); (1%Z, 412%N); (1%Z, 461%N); ((-1)%Z, 462%N); (1%Z, 611%N); ((-1)%Z, 612%N); (1%Z, 757%N); ((-1)%Z, 758%N); (1%Z, 785%N); ((-1)%Z, 786%N); (1%Z, 803%N); ((-1)%Z, 804%N); (1%Z, 837%N); ((-1)%Z, 838%N); (1%Z, 889%N); ((-1)%Z, 890%N); (1%Z, 919%N); ((-1)%Z, 920%N); (1%Z, 921%N); ((-1)%Z, 922%N)] (* CH3OH 5587 *);
   [(1%Z, 282%N); ((-1)%Z, 283%N); ((-1)%Z, 284%N); (1%Z, 285%N); ((-1)%Z, 286%N); (1%Z, 287%N); ((-1)%Z, 288%N); (1%Z, 289%N); ((-1)%Z, 290%N); (1%Z, 291%N); ((-1)%Z, 292%N); (1%Z, 293%N); ((-2)%Z, 294%N); ((-2)%Z, 295%N); ((-1)%Z, 296%N); (1%Z, 297%N); ((-1)%Z, 298%N); (1%Z, 299%N); ((-1)%Z, 300%N); (1%Z, 301%N); ((-1)%Z, 373%N); (1%Z, 374%N); ((-1)%Z, 383%N); (1%Z, 384%N); ((-1)%Z, 399%N); (1%Z, 400%N); ((-1)%Z, 455%N); (1%Z, 456%N); ((-1)%Z, 485%N); (1%Z, 486%N); ((-1)%Z, 595%N); (1%Z, 596%N); ((-1)%Z, 613%N); (1%Z, 614%N); ((-1)%Z, 619%N); (1%Z, 620%N); ((-1)%Z, 710%N); (1%Z, 711%N); ((-1)%Z, 712%N); (1%Z, 713%N); ((-1)%Z, 714%N); (1%Z, 715%N); ((-1)%Z, 763%N); (1%Z, 764%N); ((-1)%Z, 787%N); (1%Z, 788%N); ((-1)%Z, 805%N); (1%Z, 806%N); ((-1)%Z, 831%N); (1%Z, 832%N); ((-1)%Z, 923%N); (1%Z, 924%N); ((-1)%Z, 925%N); (1%Z, 926%N)] (* CH3O2 5600 *);
   [(1%Z, 217%N); ((-1)%Z, 218%N); (1%Z, 253%N); ((-1)%Z, 254%N); ((-1)%Z, 304%N); (1%Z, 305%N); ((-1)%Z, 306%N); (1%Z, 307%N); ((-1)%Z, 308%N); (1%Z, 309%N); ((-1)%Z, 310%N); (1%Z, 311%N); ((-1)%Z, 312%N); (1%Z, 313%N); ((-1)%Z, 314%N); (1%Z, 315%N); ((-1)%Z, 316%N); (1%Z, 317%N); ((-1)%Z, 318%N); ((-1)%Z, 319%N); (1%Z, 320%N); ((-1)%Z, 321%N); (1%Z, 322%N); ((-1)%Z, 323%N); (1%Z, 324%N); ((-1)%Z, 325%N); (1%Z, 326%N); ((-1)%Z, 327%N); (1%Z, 328%N); ((-1)%Z, 379%N); (1%Z, 380%N); ((-1)%Z, 553%N); (1%Z, 554%N); (1%Z, 557%N); ((-1)%Z, 558%N); ((-1)%Z, 627%N); (1%Z, 628%N)] (* CH2Y 5612 *);
   [(1%Z, 357%N); ((-1)%Z, 358%N); (1%Z, 359%N); ((-1)%Z, 360%N); ((-1)%Z, 361%N); (1%Z, 362%N); ((-1)%Z, 363%N); (1%Z, 364%N); ((-1)%Z, 365%N); (1%Z, 366%N); ((-1)%Z, 367%N); (1%Z, 368%N); ((-1)%Z, 369%N); (1%Z, 370%N); ((-1)%Z, 371%N); (1%Z, 372%N); ((-1)%Z, 373%N); (1%Z, 374%N); ((-1)%Z, 375%N); (1%Z, 376%N); ((-1)%Z, 377%N); (1%Z, 378%N); ((-1)%Z, 379%N); (1%Z, 380%N); ((-1)%Z, 415%N); (1%Z, 416%N); ((-1)%Z, 511%N); (1%Z, 512%N); (1%Z, 728%N); ((-1)%Z, 729%N); (1%Z, 730%N); ((-1)%Z, 731%N); (1%Z, 807%N); ((-1)%Z, 808%N)] (* C2H6 5620 *);
   [(1%Z, 565%N); ((-1)%Z, 566%N); ((-1)%Z, 629%N); (1%Z, 630%N); (1%Z, 636%N); ((-1)%Z, 637%N); (1%Z, 638%N); ((-1)%Z, 639%N); (1%Z, 642%N); ((-1)%Z, 643%N); (1%Z, 644%N); ((-1)%Z, 645%N); (1%Z, 646%N); ((-1)%Z, 647%N); (1%Z, 654%N); ((-1)%Z, 655%N); ((-1)%Z, 656%N); (1%Z, 657%N); ((-1)%Z, 658%N); (1%Z, 659%N); ((-1)%Z, 660%N); (1%Z, 661%N); ((-1)%Z, 662%N); (1%Z, 663%N); ((-1)%Z, 664%N); (1%Z, 665%N); ((-1)%Z, 666%N); (1%Z, 667%N); ((-1)%Z, 668%N); (1%Z, 669%N); ((-1)%Z, 670%N); (1%Z, 671%N); ((-1)%Z, 672%N); (1%Z, 673%N); (1%Z, 674%N); ((-1)%Z, 675%N)] (* C2H2 5628 *);
   [(1%Z, 599%N); ((-1)%Z, 600%N); (1%Z, 670%N); ((-1)%Z, 671%N)] (* C2H2OH 5636 *);
   [(1%Z, 526%N); ((-1)%Z, 527%N); (1%Z, 528%N); ((-1)%Z, 529%N); ((-1)%Z, 532%N); ((-1)%Z, 533%N); (1%Z, 534%N)] (* HO2CH2CO 5638 *);
   [(1%Z, 487%N); ((-1)%Z, 488%N); (1%Z, 503%N); ((-1)%Z, 504%N); (1%Z, 505%N); ((-1)%Z, 506%N); (1%Z, 507%N); ((-1)%Z, 508%N); (1%Z, 509%N); ((-1)%Z, 510%N); (1%Z, 511%N); ((-1)%Z, 512%N); ((-1)%Z, 513%N); (1%Z, 514%N); (1%Z, 617%N); ((-1)%Z, 618%N); (1%Z, 815%N); ((-1)%Z, 816%N)] (* CH3CO3H 5641 *);
   [(1%Z, 397%N); ((-1)%Z, 398%N); (1%Z, 399%N); ((-1)%Z, 400%N); ((-1)%Z, 401%N); (1%Z, 402%N); (1%Z, 403%N); ((-1)%Z, 404%N); (1%Z, 405%N); ((-1)%Z, 406%N); (1%Z, 417%N); ((-1)%Z, 418%N); (1%Z, 621%N); ((-1)%Z, 622%N); (1%Z, 696%N); ((-1)%Z, 697%N); (1%Z, 702%N); ((-1)%Z, 703%N); (1%Z, 708%N); ((-1)%Z, 709%N); (1%Z, 714%N); ((-1)%Z, 715%N); (1%Z, 720%N); ((-1)%Z, 721%N); (1%Z, 726%N); ((-1)%Z, 727%N); (1%Z, 736%N); ((-1)%Z, 737%N); ((-1)%Z, 809%N); (1%Z, 810%N)] (* C2H5O 5646 *);
   [(1%Z, 385%N); ((-1)%Z, 386%N); (1%Z, 407%N); ((-1)%Z, 408%N); (1%Z, 409%N); ((-1)%Z, 410%N); (1%Z, 411%N); ((-1)%Z, 412%N); (1%Z, 413%N); ((-1)%Z, 414%N); (1%Z, 415%N); ((-1)%Z, 416%N); ((-1)%Z, 417%N); (1%Z, 418%N); (1%Z, 457%N); ((-1)%Z, 458%N); (1%Z, 615%N); ((-1)%Z, 616%N); (1%Z, 811%N); ((-1)%Z, 812%N)] (* C2H5O2H 5653 *);
   [(1%Z, 449%N); ((-1)%Z, 450%N); (1%Z, 451%N); ((-1)%Z, 452%N); (1%Z, 453%N); ((-1)%Z, 454%N); (1%Z, 455%N); ((-1)%Z, 456%N); (1%Z, 457%N); ((-1)%Z, 458%N); (1%Z, 459%N); ((-1)%Z, 460%N); (1%Z, 461%N); ((-1)%Z, 462%N); ((-1)%Z, 463%N); (1%Z, 464%N); ((-1)%Z, 465%N); (1%Z, 466%N)] (* C2H3O1 5658 *);
   [(1%Z, 793%N); ((-1)%Z, 794%N); (1%Z, 795%N); ((-1)%Z, 796%N); (1%Z, 797%N); ((-1)%Z, 798%N); (1%Z, 799%N); ((-1)%Z, 800%N); (1%Z, 801%N); ((-1)%Z, 802%N); (1%Z, 803%N); ((-1)%Z, 804%N); (1%Z, 805%N); ((-1)%Z, 806%N); (1%Z, 807%N); ((-1)%Z, 808%N); (1%Z, 809%N); ((-1)%Z, 810%N); (1%Z, 811%N); ((-1)%Z, 812%N); (1%Z, 813%N); ((-1)%Z, 814%N); (1%Z, 815%N); ((-1)%Z, 816%N); (1%Z, 817%N); ((-1)%Z, 818%N); (1%Z, 819%N); ((-1)%Z, 820%N)] (* C2H5CO 5663 *);
   [(1%Z, 868%N); ((-1)%Z, 869%N); ((-1)%Z, 870%N); ((-1)%Z, 871%N); (1%Z, 872%N)] (* CH2OCH2O2H 5670 *);
   [(1%Z, 873%N); ((-1)%Z, 874%N); ((-1)%Z, 875%N); (1%Z, 876%N)] (* HO2CH2OCHO 5672 *);
   [((-1)%Z, 887%N); (1%Z, 888%N); (1%Z, 895%N); ((-1)%Z, 896%N); (1%Z, 899%N); ((-1)%Z, 900%N); (1%Z, 903%N); ((-1)%Z, 904%N); (1%Z, 907%N); ((-1)%Z, 908%N); (1%Z, 911%N); ((-1)%Z, 912%N); (1%Z, 915%N); ((-1)%Z, 916%N); (1%Z, 919%N); ((-1)%Z, 920%N); (1%Z, 923%N); ((-1)%Z, 924%N); (1%Z, 927%N); ((-1)%Z, 928%N); ((-1)%Z, 931%N); (1%Z, 932%N); (1%Z, 933%N); ((-1)%Z, 934%N); (1%Z, 935%N); ((-1)%Z, 936%N)] (* CH3OCO 5674 *);
   [((-1)%Z, 2%N); (1%Z, 3%N); ((-1)%Z, 4%N); (1%Z, 5%N); ((-1)%Z, 8%N); (1%Z, 9%N); ((-1)%Z, 24%N); (1%Z, 25%N); (1%Z, 40%N); ((-1)%Z, 41%N); (1%Z, 62%N); ((-1)%Z, 63%N); (1%Z, 71%N); ((-1)%Z, 88%N); (1%Z, 88%N); ((-1)%Z, 89%N); (1%Z, 89%N); ((-1)%Z, 126%N); (1%Z, 126%N); ((-1)%Z, 127%N); (1%Z, 127%N); ((-1)%Z, 136%N); (1%Z, 137%N); (1%Z, 140%N); ((-1)%Z, 141%N); (1%Z, 154%N); ((-1)%Z, 155%N); (1%Z, 160%N); (1%Z, 161%N); (1%Z, 179%N); ((-1)%Z, 180%N); (1%Z, 189%N); ((-1)%Z, 190%N); (1%Z, 221%N); ((-1)%Z, 222%N); (1%Z, 223%N); ((-1)%Z, 224%N); (1%Z, 243%N); ((-1)%Z, 244%N); (1%Z, 255%N); ((-1)%Z, 256%N); (1%Z, 261%N); ((-1)%Z, 262%N); (1%Z, 308%N); ((-1)%Z, 309%N); (1%Z, 310%N); ((-1)%Z, 311%N); ((-1)%Z, 316%N); (1%Z, 317%N); (1%Z, 335%N); ((-1)%Z, 336%N); (1%Z, 337%N); ((-1)%Z, 338%N); (1%Z, 347%N); ((-1)%Z, 348%N); (1%Z, 361%N); ((-1)%Z, 362%N); ((-1)%Z, 383%N); (1%Z, 384%N); ((-1)%Z, 385%N); (1%Z, 386%N); (1%Z, 393%N); ((-1)%Z, 394%N); (1%Z, 451%N); ((-1)%Z, 452%N); (1%Z, 471%N); ((-1)%Z, 472%N); (1%Z, 473%N); ((-1)%Z, 474%N); (1%Z, 495%N); ((-1)%Z, 496%N); (1%Z, 539%N); ((-1)%Z, 540%N); (1%Z, 555%N); (1%Z, 569%N); ((-1)%Z, 570%N); (1%Z, 571%N); ((-1)%Z, 572%N); (1%Z, 597%N); ((-1)%Z, 598%N); (1%Z, 599%N); ((-1)%Z, 600%N); (1%Z, 638%N); ((-1)%Z, 639%N); (1%Z, 640%N); ((-1)%Z, 641%N); ((-1)%Z, 654%N); (1%Z, 655%N); (1%Z, 692%N); ((-1)%Z, 693%N); (1%Z, 694%N); ((-1)%Z, 695%N); (1%Z, 696%N); ((-1)%Z, 697%N); (1%Z, 751%N); ((-1)%Z, 752%N); (1%Z, 771%N); ((-1)%Z, 772%N); (1%Z, 793%N); ((-1)%Z, 794%N); (1%Z, 825%N); ((-1)%Z, 826%N); (1%Z, 911%N); ((-1)%Z, 912%N); (1%Z, 913%N); ((-1)%Z, 914%N)] (* H2 5681 *);
   [((-1)%Z, 86%N); (1%Z, 87%N); ((-1)%Z, 88%N); (1%Z, 89%N); ((-1)%Z, 90%N); (1%Z, 91%N); ((-1)%Z, 92%N); (1%Z, 93%N); ((-1)%Z, 94%N); (1%Z, 95%N); ((-1)%Z, 96%N); (1%Z, 97%N); ((-1)%Z, 98%N); (1%Z, 99%N); ((-1)%Z, 100%N); (1%Z, 101%N); ((-1)%Z, 102%N); (1%Z, 103%N); ((-1)%Z, 104%N); (1%Z, 105%N); ((-1)%Z, 106%N); (1%Z, 107%N); (1%Z, 108%N); ((-1)%Z, 109%N)] (* OHY 5700 *);
   [(1%Z, 30%N); ((-1)%Z, 31%N); (1%Z, 32%N); ((-1)%Z, 33%N); ((-1)%Z, 34%N); (1%Z, 35%N); ((-1)%Z, 36%N); (1%Z, 37%N); ((-1)%Z, 38%N); (1%Z, 39%N); ((-1)%Z, 40%N); (1%Z, 41%N); ((-1)%Z, 42%N); (1%Z, 43%N); ((-1)%Z, 44%N); (1%Z, 45%N); ((-1)%Z, 46%N); (1%Z, 47%N); (1%Z, 146%N); ((-1)%Z, 147%N); ((-1)%Z, 163%N); (1%Z, 164%N); (1%Z, 165%N); (1%Z, 181%N); ((-1)%Z, 182%N); (1%Z, 191%N); ((-1)%Z, 192%N); (1%Z, 233%N); ((-1)%Z, 234%N); (1%Z, 249%N); ((-1)%Z, 250%N); (1%Z, 371%N); ((-1)%Z, 372%N); (1%Z, 453%N); ((-1)%Z, 454%N); (1%Z, 483%N); ((-1)%Z, 484%N); ((-1)%Z, 505%N); (1%Z, 506%N); (1%Z, 704%N); ((-1)%Z, 705%N); (1%Z, 706%N); ((-1)%Z, 707%N); (1%Z, 708%N); ((-1)%Z, 709%N); (1%Z, 761%N); ((-1)%Z, 762%N); (1%Z, 779%N); ((-1)%Z, 780%N); (1%Z, 801%N); ((-1)%Z, 802%N); (1%Z, 829%N); ((-1)%Z, 830%N); (1%Z, 903%N); ((-1)%Z, 904%N); (1%Z, 905%N); ((-1)%Z, 906%N)] (* H2O2 5705 *);
   [((-1)%Z, 74%N); (1%Z, 75%N); ((-1)%Z, 78%N); (1%Z, 79%N); (1%Z, 84%N); ((-1)%Z, 85%N); (1%Z, 134%N); ((-1)%Z, 135%N); (1%Z, 136%N); ((-1)%Z, 137%N); ((-1)%Z, 138%N); (1%Z, 139%N); ((-1)%Z, 140%N); (1%Z, 141%N); ((-1)%Z, 142%N); (1%Z, 143%N); ((-1)%Z, 144%N); (1%Z, 145%N); ((-1)%Z, 146%N); (1%Z, 147%N); ((-1)%Z, 148%N); (1%Z, 149%N); ((-1)%Z, 167%N); (1%Z, 168%N); (1%Z, 169%N); ((-1)%Z, 170%N); (1%Z, 171%N); ((-1)%Z, 172%N); ((-1)%Z, 173%N); (1%Z, 174%N); (1%Z, 177%N); ((-1)%Z, 178%N); (1%Z, 179%N); ((-1)%Z, 180%N); (1%Z, 181%N); ((-1)%Z, 182%N); ((-1)%Z, 183%N); (1%Z, 184%N); (1%Z, 185%N); ((-1)%Z, 186%N); (1%Z, 187%N); ((-1)%Z, 188%N); (1%Z, 189%N); ((-1)%Z, 190%N); (1%Z, 191%N); ((-1)%Z, 192%N); (2%Z, 193%N); ((-2)%Z, 194%N); (1%Z, 195%N); ((-1)%Z, 196%N); (1%Z, 197%N); ((-1)%Z, 198%N); (1%Z, 199%N); ((-1)%Z, 200%N); (1%Z, 201%N); ((-1)%Z, 202%N); (1%Z, 203%N); ((-1)%Z, 204%N); ((-1)%Z, 207%N); (1%Z, 208%N); (1%Z, 239%N); ((-1)%Z, 240%N); (1%Z, 255%N); ((-1)%Z, 256%N); (1%Z, 265%N); ((-1)%Z, 266%N); (1%Z, 276%N); ((-1)%Z, 277%N); (1%Z, 280%N); ((-1)%Z, 281%N); ((-1)%Z, 284%N); (1%Z, 285%N); (1%Z, 294%N); (1%Z, 314%N); ((-1)%Z, 315%N); (1%Z, 327%N); ((-1)%Z, 328%N); (1%Z, 353%N); ((-1)%Z, 354%N); ((-1)%Z, 403%N); (1%Z, 404%N); ((-1)%Z, 407%N); (1%Z, 408%N); ((-1)%Z, 509%N); (1%Z, 510%N); (1%Z, 525%N); (1%Z, 532%N); ((-1)%Z, 563%N); (1%Z, 564%N); (1%Z, 579%N); ((-1)%Z, 580%N); (1%Z, 631%N); ((-1)%Z, 632%N); (1%Z, 635%N); (2%Z, 742%N); (1%Z, 845%N); ((-1)%Z, 846%N); (1%Z, 847%N); ((-1)%Z, 848%N); ((-1)%Z, 849%N); (1%Z, 850%N); ((-1)%Z, 855%N); (1%Z, 856%N); ((-1)%Z, 862%N); (1%Z, 863%N); (2%Z, 870%N); ((-1)%Z, 877%N); (1%Z, 878%N); (1%Z, 927%N); ((-1)%Z, 928%N); (1%Z, 929%N); ((-1)%Z, 930%N); ((-1)%Z, 937%N); (1%Z, 938%N); (1%Z, 941%N); ((-1)%Z, 942%N)] (* CH2O 5716 *);
   [(1%Z, 76%N); ((-1)%Z, 77%N); ((-1)%Z, 78%N); (1%Z, 79%N); ((-1)%Z, 841%N); (1%Z, 842%N)] (* O2CHO 5737 *);
   [(1%Z, 209%N); ((-1)%Z, 210%N); ((-1)%Z, 211%N); (1%Z, 212%N)] (* HOCH2O2 5739 *);
   [(1%Z, 183%N); ((-1)%Z, 184%N); ((-1)%Z, 185%N); (1%Z, 186%N); ((-1)%Z, 187%N); (1%Z, 188%N); ((-1)%Z, 189%N); (1%Z, 190%N); ((-1)%Z, 191%N); (1%Z, 192%N); ((-1)%Z, 193%N); (1%Z, 194%N); ((-1)%Z, 195%N); (1%Z, 196%N); (1%Z, 197%N); ((-1)%Z, 198%N); ((-1)%Z, 199%N); (1%Z, 200%N); ((-1)%Z, 201%N); (1%Z, 202%N); ((-2)%Z, 203%N); (2%Z, 204%N); ((-1)%Z, 205%N); (1%Z, 206%N); (1%Z, 219%N); ((-1)%Z, 220%N); (1%Z, 221%N); ((-1)%Z, 222%N); (1%Z, 225%N); ((-1)%Z, 226%N); (1%Z, 227%N); ((-1)%Z, 228%N); (1%Z, 231%N); ((-1)%Z, 232%N); (1%Z, 233%N); ((-1)%Z, 234%N); (1%Z, 235%N); ((-1)%Z, 236%N); (1%Z, 237%N); ((-1)%Z, 238%N); (1%Z, 257%N); ((-1)%Z, 258%N); (1%Z, 288%N); ((-1)%Z, 289%N); (1%Z, 411%N); ((-1)%Z, 412%N); (1%Z, 549%N); ((-1)%Z, 550%N); (1%Z, 684%N); ((-1)%Z, 685%N); ((-1)%Z, 883%N); (1%Z, 884%N)] (* CH2OH 5741 *);
   [(1%Z, 72%N); ((-1)%Z, 73%N); ((-1)%Z, 106%N); (1%Z, 106%N); ((-1)%Z, 107%N); (1%Z, 107%N); ((-1)%Z, 128%N); (1%Z, 128%N); ((-1)%Z, 129%N); (1%Z, 129%N); (1%Z, 144%N); ((-1)%Z, 145%N); (1%Z, 162%N); (1%Z, 175%N); ((-1)%Z, 176%N); (1%Z, 177%N); ((-1)%Z, 178%N); (1%Z, 235%N); ((-1)%Z, 236%N); (1%Z, 241%N); ((-1)%Z, 242%N); ((-1)%Z, 243%N); (1%Z, 244%N); ((-1)%Z, 245%N); (1%Z, 246%N); ((-1)%Z, 247%N); (1%Z, 248%N); ((-1)%Z, 249%N); (1%Z, 250%N); ((-1)%Z, 251%N); (1%Z, 252%N); (1%Z, 274%N); ((-1)%Z, 275%N); ((-1)%Z, 286%N); (1%Z, 287%N); (1%Z, 369%N); ((-1)%Z, 370%N); (1%Z, 389%N); ((-1)%Z, 390%N); ((-1)%Z, 409%N); (1%Z, 410%N); (1%Z, 459%N); ((-1)%Z, 460%N); (1%Z, 469%N); ((-1)%Z, 470%N); (1%Z, 481%N); ((-1)%Z, 482%N); (1%Z, 499%N); ((-1)%Z, 500%N); ((-1)%Z, 507%N); (1%Z, 508%N); (1%Z, 593%N); ((-1)%Z, 594%N); (1%Z, 607%N); ((-1)%Z, 608%N); ((-1)%Z, 625%N); (1%Z, 626%N); (1%Z, 636%N); ((-1)%Z, 637%N); (1%Z, 722%N); ((-1)%Z, 723%N); (1%Z, 724%N); ((-1)%Z, 725%N); (1%Z, 726%N); ((-1)%Z, 727%N); (1%Z, 755%N); ((-1)%Z, 756%N); (1%Z, 781%N); ((-1)%Z, 782%N); (1%Z, 799%N); ((-1)%Z, 800%N); (1%Z, 833%N); ((-1)%Z, 834%N); (1%Z, 915%N); ((-1)%Z, 916%N); (1%Z, 917%N); ((-1)%Z, 918%N)] (* CH4 5752 *);
   [((-1)%Z, 112%N); (1%Z, 113%N); ((-1)%Z, 343%N); (1%Z, 344%N); ((-1)%Z, 345%N); (1%Z, 346%N); (1%Z, 347%N); ((-1)%Z, 348%N)] (* C 5766 *);
   [((-1)%Z, 359%N); (1%Z, 360%N); (1%Z, 361%N); ((-1)%Z, 362%N); (1%Z, 363%N); ((-1)%Z, 364%N); (1%Z, 365%N); ((-1)%Z, 366%N); (1%Z, 367%N); ((-1)%Z, 368%N); (1%Z, 369%N); ((-1)%Z, 370%N); (1%Z, 371%N); ((-1)%Z, 372%N); (1%Z, 373%N); ((-1)%Z, 374%N); (1%Z, 375%N); ((-1)%Z, 376%N); (1%Z, 377%N); ((-1)%Z, 378%N); (1%Z, 379%N); ((-1)%Z, 380%N); (1%Z, 381%N); ((-1)%Z, 382%N); (1%Z, 387%N); ((-1)%Z, 388%N); ((-1)%Z, 389%N); (1%Z, 390%N); (1%Z, 391%N); ((-1)%Z, 392%N); ((-1)%Z, 393%N); (1%Z, 394%N); ((-1)%Z, 395%N); (1%Z, 396%N); ((-1)%Z, 397%N); (1%Z, 398%N); ((-1)%Z, 399%N); (1%Z, 400%N); (1%Z, 415%N); ((-1)%Z, 416%N); ((-1)%Z, 419%N); (1%Z, 420%N); ((-1)%Z, 421%N); (1%Z, 422%N); ((-1)%Z, 423%N); (1%Z, 424%N); ((-1)%Z, 425%N); (1%Z, 426%N); ((-1)%Z, 427%N); (1%Z, 428%N); ((-1)%Z, 429%N); (1%Z, 430%N); (1%Z, 511%N); ((-1)%Z, 512%N); (1%Z, 551%N); ((-1)%Z, 552%N); (1%Z, 686%N); ((-1)%Z, 687%N); ((-1)%Z, 728%N); (1%Z, 729%N); ((-1)%Z, 730%N); (1%Z, 731%N); ((-1)%Z, 791%N); (1%Z, 792%N); ((-1)%Z, 807%N); (1%Z, 808%N); ((-1)%Z, 819%N); (1%Z, 820%N)] (* C2H5 5769 *);
   [((-1)%Z, 110%N); (1%Z, 111%N); ((-1)%Z, 114%N); (1%Z, 115%N); ((-1)%Z, 646%N); (1%Z, 647%N); ((-1)%Z, 648%N); (1%Z, 649%N); ((-1)%Z, 650%N); (1%Z, 651%N); ((-1)%Z, 652%N); (1%Z, 653%N); ((-1)%Z, 654%N); (1%Z, 655%N); (1%Z, 662%N); ((-1)%Z, 663%N)] (* C2H 5783 *);
   [(1%Z, 463%N); ((-1)%Z, 464%N); (1%Z, 471%N); ((-1)%Z, 472%N); (1%Z, 475%N); ((-1)%Z, 476%N); (1%Z, 477%N); ((-1)%Z, 478%N); (1%Z, 479%N); ((-1)%Z, 480%N); (1%Z, 481%N); ((-1)%Z, 482%N); (1%Z, 483%N); ((-1)%Z, 484%N); (1%Z, 485%N); ((-1)%Z, 486%N); (1%Z, 487%N); ((-1)%Z, 488%N); ((-1)%Z, 493%N); (1%Z, 494%N); ((-1)%Z, 495%N); (1%Z, 496%N); ((-1)%Z, 497%N); (1%Z, 498%N); ((-1)%Z, 499%N); (1%Z, 500%N); ((-1)%Z, 501%N); (1%Z, 502%N); ((-1)%Z, 537%N); (1%Z, 538%N); (1%Z, 747%N); ((-1)%Z, 748%N); (1%Z, 851%N); ((-1)%Z, 852%N); (1%Z, 857%N); ((-1)%Z, 858%N)] (* CH3CO 5787 *);
   [(1%Z, 495%N); ((-1)%Z, 496%N); (1%Z, 497%N); ((-1)%Z, 498%N); (1%Z, 499%N); ((-1)%Z, 500%N); (1%Z, 517%N); ((-1)%Z, 518%N); (1%Z, 523%N); ((-1)%Z, 524%N); (1%Z, 530%N); ((-1)%Z, 531%N); (1%Z, 533%N); ((-1)%Z, 534%N); (1%Z, 535%N); ((-1)%Z, 536%N); (1%Z, 537%N); ((-1)%Z, 538%N); ((-1)%Z, 539%N); (1%Z, 540%N); ((-1)%Z, 541%N); (1%Z, 542%N); ((-1)%Z, 543%N); (1%Z, 544%N); ((-1)%Z, 545%N); (1%Z, 546%N); ((-1)%Z, 547%N); (1%Z, 548%N); ((-1)%Z, 549%N); (1%Z, 550%N); ((-1)%Z, 551%N); (1%Z, 552%N); ((-1)%Z, 553%N); (1%Z, 554%N); (1%Z, 563%N); ((-1)%Z, 564%N); (1%Z, 666%N); ((-1)%Z, 667%N); (1%Z, 676%N); ((-1)%Z, 677%N); (1%Z, 680%N); ((-1)%Z, 681%N); ((-1)%Z, 765%N); (1%Z, 766%N)] (* CH2CO 5795 *);
   [((-1)%Z, 487%N); (1%Z, 488%N); (1%Z, 501%N); ((-1)%Z, 502%N); ((-1)%Z, 503%N); (1%Z, 504%N); ((-1)%Z, 505%N); (1%Z, 506%N); ((-1)%Z, 507%N); (1%Z, 508%N); ((-1)%Z, 509%N); (1%Z, 510%N); ((-1)%Z, 511%N); (1%Z, 512%N); ((-1)%Z, 617%N); (1%Z, 618%N); ((-1)%Z, 815%N); (1%Z, 816%N)] (* CH3CO3 5805 *);
   [(1%Z, 585%N); ((-1)%Z, 586%N); (1%Z, 601%N); ((-1)%Z, 602%N); (1%Z, 688%N); ((-1)%Z, 689%N); (1%Z, 694%N); ((-1)%Z, 695%N); (1%Z, 700%N); ((-1)%Z, 701%N); (1%Z, 706%N); ((-1)%Z, 707%N); (1%Z, 710%N); ((-1)%Z, 711%N); (1%Z, 716%N); ((-1)%Z, 717%N); (1%Z, 722%N); ((-1)%Z, 723%N); (1%Z, 728%N); ((-1)%Z, 729%N); (1%Z, 738%N); ((-1)%Z, 739%N); (1%Z, 740%N); ((-1)%Z, 741%N)] (* PC2H4OH 5810 *);
   [((-1)%Z, 385%N); (1%Z, 386%N); ((-1)%Z, 407%N); (1%Z, 408%N); ((-1)%Z, 409%N); (1%Z, 410%N); ((-1)%Z, 411%N); (1%Z, 412%N); ((-1)%Z, 413%N); (1%Z, 414%N); ((-1)%Z, 415%N); (1%Z, 416%N); (1%Z, 419%N); ((-1)%Z, 420%N); (1%Z, 431%N); ((-1)%Z, 432%N); ((-1)%Z, 433%N); (1%Z, 434%N); ((-1)%Z, 435%N); (1%Z, 436%N); ((-1)%Z, 437%N); (1%Z, 438%N); ((-1)%Z, 457%N); (1%Z, 458%N); ((-1)%Z, 615%N); (1%Z, 616%N); ((-1)%Z, 621%N); (1%Z, 622%N); ((-1)%Z, 811%N); (1%Z, 812%N)] (* C2H5O2 5816 *);
   [((-1)%Z, 747%N); (1%Z, 748%N); ((-1)%Z, 749%N); (1%Z, 750%N); ((-1)%Z, 751%N); (1%Z, 752%N); ((-1)%Z, 753%N); (1%Z, 754%N); ((-1)%Z, 755%N); (1%Z, 756%N); ((-1)%Z, 757%N); (1%Z, 758%N); ((-1)%Z, 759%N); (1%Z, 760%N); ((-1)%Z, 761%N); (1%Z, 762%N); ((-1)%Z, 763%N); (1%Z, 764%N)] (* CH3COCH3 5823 *);
   [(1%Z, 769%N); ((-1)%Z, 770%N); ((-1)%Z, 771%N); (1%Z, 772%N); ((-1)%Z, 773%N); (1%Z, 774%N); ((-1)%Z, 775%N); (1%Z, 776%N); ((-1)%Z, 777%N); (1%Z, 778%N); ((-1)%Z, 779%N); (1%Z, 780%N); ((-1)%Z, 781%N); (1%Z, 782%N); ((-1)%Z, 783%N); (1%Z, 784%N); ((-1)%Z, 785%N); (1%Z, 786%N); ((-1)%Z, 787%N); (1%Z, 788%N)] (* C2H3CHO 5828 *);
   [((-1)%Z, 821%N); (1%Z, 822%N); ((-1)%Z, 823%N); (1%Z, 824%N); ((-1)%Z, 825%N); (1%Z, 826%N); ((-1)%Z, 827%N); (1%Z, 828%N); ((-1)%Z, 829%N); (1%Z, 830%N); ((-1)%Z, 831%N); (1%Z, 832%N); ((-1)%Z, 833%N); (1%Z, 834%N); ((-1)%Z, 835%N); (1%Z, 836%N); ((-1)%Z, 837%N); (1%Z, 838%N); ((-1)%Z, 839%N); (1%Z, 840%N); ((-1)%Z, 841%N); (1%Z, 842%N); ((-1)%Z, 843%N); (1%Z, 844%N); (1%Z, 847%N); ((-1)%Z, 848%N); (1%Z, 849%N); ((-1)%Z, 850%N); (1%Z, 851%N); ((-1)%Z, 852%N)] (* CH3OCH3 5833 *);
   [(1%Z, 839%N); ((-1)%Z, 840%N); (1%Z, 855%N); ((-1)%Z, 856%N); (1%Z, 857%N); ((-1)%Z, 858%N); (1%Z, 860%N); ((-1)%Z, 861%N)] (* CH3OCH2O2H 5840 *);
   [(1%Z, 875%N); ((-1)%Z, 876%N); (1%Z, 877%N); ((-1)%Z, 878%N); ((-1)%Z, 879%N); (1%Z, 880%N)] (* OCH2OCHO 5843 *);
   [((-1)%Z, 885%N); (1%Z, 886%N); (1%Z, 897%N); ((-1)%Z, 898%N); (1%Z, 901%N); ((-1)%Z, 902%N); (1%Z, 905%N); ((-1)%Z, 906%N); (1%Z, 909%N); ((-1)%Z, 910%N); (1%Z, 913%N); ((-1)%Z, 914%N); (1%Z, 917%N); ((-1)%Z, 918%N); (1%Z, 921%N); ((-1)%Z, 922%N); (1%Z, 925%N); ((-1)%Z, 926%N); (1%Z, 929%N); ((-1)%Z, 930%N); (1%Z, 931%N); ((-1)%Z, 932%N); (1%Z, 937%N); ((-1)%Z, 938%N)] (* CH2OCHO 5846 *);
   [((-1)%Z, 939%N); (1%Z, 940%N)] (* C2H3OOH 5852 *);
   [(1%Z, 0%N); ((-1)%Z, 1%N); ((-1)%Z, 2%N); (1%Z, 3%N); ((-1)%Z, 6%N); (1%Z, 7%N); ((-2)%Z, 10%N); (2%Z, 11%N); ((-1)%Z, 12%N); (1%Z, 13%N); ((-1)%Z, 26%N); (1%Z, 27%N); ((-1)%Z, 42%N); (1%Z, 43%N); ((-1)%Z, 48%N); (1%Z, 49%N); (1%Z, 50%N); ((-1)%Z, 51%N); ((-1)%Z, 64%N); (1%Z, 65%N); ((-1)%Z, 66%N); (1%Z, 67%N); ((-1)%Z, 110%N); (1%Z, 111%N); ((-1)%Z, 142%N); (1%Z, 143%N); ((-1)%Z, 166%N); ((-1)%Z, 201%N); (1%Z, 202%N); ((-1)%Z, 225%N); (1%Z, 226%N); ((-1)%Z, 247%N); (1%Z, 248%N); ((-1)%Z, 267%N); ((-1)%Z, 268%N); ((-1)%Z, 276%N); (1%Z, 277%N); (1%Z, 278%N); ((-1)%Z, 279%N); ((-1)%Z, 298%N); (1%Z, 299%N); ((-1)%Z, 310%N); (1%Z, 311%N); ((-1)%Z, 312%N); (1%Z, 313%N); ((-1)%Z, 334%N); (1%Z, 341%N); ((-1)%Z, 342%N); (1%Z, 345%N); ((-1)%Z, 346%N); ((-1)%Z, 349%N); (1%Z, 350%N); ((-1)%Z, 363%N); (1%Z, 364%N); ((-1)%Z, 395%N); (1%Z, 396%N); ((-1)%Z, 475%N); (1%Z, 476%N); ((-1)%Z, 497%N); (1%Z, 498%N); ((-1)%Z, 543%N); (1%Z, 544%N); ((-1)%Z, 545%N); (1%Z, 546%N); ((-1)%Z, 556%N); ((-1)%Z, 573%N); (1%Z, 574%N); ((-1)%Z, 575%N); (1%Z, 576%N); ((-1)%Z, 589%N); (1%Z, 590%N); (1%Z, 633%N); ((-1)%Z, 634%N); ((-1)%Z, 648%N); (1%Z, 649%N); ((-1)%Z, 658%N); (1%Z, 659%N); ((-1)%Z, 660%N); (1%Z, 661%N); ((-1)%Z, 716%N); (1%Z, 717%N); ((-1)%Z, 718%N); (1%Z, 719%N); ((-1)%Z, 720%N); (1%Z, 721%N); ((-1)%Z, 753%N); (1%Z, 754%N); ((-1)%Z, 773%N); (1%Z, 774%N); ((-1)%Z, 795%N); (1%Z, 796%N); ((-1)%Z, 827%N); (1%Z, 828%N); ((-1)%Z, 907%N); (1%Z, 908%N); ((-1)%Z, 909%N); (1%Z, 910%N)] (* O 5854 *);
   [(1%Z, 4%N); ((-1)%Z, 5%N); ((-1)%Z, 6%N); (1%Z, 7%N); (1%Z, 14%N); ((-1)%Z, 15%N); (1%Z, 28%N); ((-1)%Z, 29%N); (1%Z, 38%N); ((-1)%Z, 39%N); (1%Z, 44%N); ((-1)%Z, 45%N); (1%Z, 46%N); ((-1)%Z, 47%N); (1%Z, 68%N); ((-1)%Z, 69%N); ((-1)%Z, 86%N); (1%Z, 86%N); ((-1)%Z, 87%N); (1%Z, 87%N); ((-1)%Z, 118%N); (1%Z, 118%N); ((-1)%Z, 119%N); (1%Z, 119%N); (1%Z, 138%N); ((-1)%Z, 139%N); (1%Z, 152%N); ((-1)%Z, 153%N); (1%Z, 158%N); (1%Z, 159%N); (1%Z, 199%N); ((-1)%Z, 200%N); (1%Z, 217%N); ((-1)%Z, 218%N); (1%Z, 227%N); ((-1)%Z, 228%N); (1%Z, 229%N); ((-1)%Z, 230%N); (1%Z, 245%N); ((-1)%Z, 246%N); (1%Z, 253%N); ((-1)%Z, 254%N); (1%Z, 263%N); ((-1)%Z, 264%N); (1%Z, 270%N); ((-1)%Z, 271%N); (1%Z, 319%N); ((-1)%Z, 320%N); ((-1)%Z, 321%N); (1%Z, 321%N); ((-1)%Z, 322%N); (1%Z, 322%N); (1%Z, 339%N); ((-1)%Z, 340%N); ((-1)%Z, 353%N); (1%Z, 354%N); (1%Z, 365%N); ((-1)%Z, 366%N); (1%Z, 449%N); ((-1)%Z, 450%N); (1%Z, 477%N); ((-1)%Z, 478%N); (1%Z, 491%N); ((-1)%Z, 492%N); (1%Z, 547%N); ((-1)%Z, 548%N); (1%Z, 577%N); ((-1)%Z, 578%N); (1%Z, 591%N); ((-1)%Z, 592%N); (1%Z, 642%N); ((-1)%Z, 643%N); (1%Z, 662%N); ((-1)%Z, 663%N); (1%Z, 682%N); ((-1)%Z, 683%N); (1%Z, 698%N); ((-1)%Z, 699%N); (1%Z, 700%N); ((-1)%Z, 701%N); (1%Z, 702%N); ((-1)%Z, 703%N); (1%Z, 749%N); ((-1)%Z, 750%N); (1%Z, 775%N); ((-1)%Z, 776%N); (1%Z, 797%N); ((-1)%Z, 798%N); (1%Z, 823%N); ((-1)%Z, 824%N); (1%Z, 899%N); ((-1)%Z, 900%N); (1%Z, 901%N); ((-1)%Z, 902%N)] (* H2O 5872 *);
   [((-1)%Z, 96%N); (1%Z, 96%N); ((-1)%Z, 97%N); (1%Z, 97%N); ((-1)%Z, 116%N); (1%Z, 116%N); ((-1)%Z, 117%N); (1%Z, 117%N); ((-1)%Z, 306%N); (1%Z, 306%N); ((-1)%Z, 307%N); (1%Z, 307%N)] (* AR 5889 *);
   [((-1)%Z, 58%N); (1%Z, 59%N); ((-1)%Z, 60%N); (1%Z, 61%N); ((-1)%Z, 62%N); (1%Z, 63%N); ((-1)%Z, 64%N); (1%Z, 65%N); ((-1)%Z, 66%N); (1%Z, 67%N); ((-1)%Z, 68%N); (1%Z, 69%N); ((-1)%Z, 70%N); ((-2)%Z, 71%N); ((-1)%Z, 72%N); (1%Z, 73%N); (1%Z, 74%N); ((-1)%Z, 75%N); ((-1)%Z, 76%N); (1%Z, 77%N); (1%Z, 78%N); ((-1)%Z, 79%N); ((-2)%Z, 84%N); (2%Z, 85%N); ((-1)%Z, 134%N); (1%Z, 135%N); (1%Z, 138%N); ((-1)%Z, 139%N); (1%Z, 140%N); ((-1)%Z, 141%N); (1%Z, 142%N); ((-1)%Z, 143%N); (1%Z, 144%N); ((-1)%Z, 145%N); (1%Z, 146%N); ((-1)%Z, 147%N); (1%Z, 167%N); ((-1)%Z, 168%N); (1%Z, 173%N); ((-1)%Z, 174%N); ((-1)%Z, 193%N); (1%Z, 194%N); ((-1)%Z, 197%N); (1%Z, 198%N); (1%Z, 263%N); ((-1)%Z, 264%N); (1%Z, 284%N); ((-1)%Z, 285%N); (1%Z, 312%N); ((-1)%Z, 313%N); (1%Z, 331%N); ((-1)%Z, 332%N); (1%Z, 341%N); ((-1)%Z, 342%N); (1%Z, 351%N); ((-1)%Z, 352%N); (1%Z, 355%N); ((-1)%Z, 356%N); (1%Z, 407%N); ((-1)%Z, 408%N); (1%Z, 445%N); ((-1)%Z, 446%N); (1%Z, 467%N); ((-1)%Z, 468%N); (1%Z, 509%N); ((-1)%Z, 510%N); (1%Z, 573%N); ((-1)%Z, 574%N); (1%Z, 631%N); ((-1)%Z, 632%N); (1%Z, 652%N); ((-1)%Z, 653%N); ((-1)%Z, 672%N); (1%Z, 673%N); (2%Z, 678%N); ((-2)%Z, 679%N); ((-1)%Z, 769%N); (1%Z, 770%N); ((-1)%Z, 791%N); (1%Z, 792%N); (1%Z, 849%N); ((-1)%Z, 850%N); (1%Z, 855%N); ((-1)%Z, 856%N); ((-1)%Z, 891%N); (1%Z, 892%N); ((-1)%Z, 927%N); (1%Z, 928%N); ((-1)%Z, 929%N); (1%Z, 930%N); ((-1)%Z, 937%N); (1%Z, 938%N)] (* HCO 5892 *);
   [(1%Z, 150%N); ((-1)%Z, 151%N); ((-1)%Z, 152%N); (1%Z, 153%N); ((-1)%Z, 154%N); (1%Z, 155%N); (1%Z, 156%N); ((-1)%Z, 157%N); ((-1)%Z, 158%N); ((-1)%Z, 159%N); ((-1)%Z, 160%N); ((-1)%Z, 161%N); ((-1)%Z, 162%N); (1%Z, 163%N); ((-1)%Z, 164%N); ((-1)%Z, 165%N); ((-1)%Z, 166%N); (1%Z, 167%N); ((-1)%Z, 168%N); (1%Z, 489%N); ((-1)%Z, 490%N); (1%Z, 843%N); ((-1)%Z, 844%N)] (* HOCHO 5909 *);
   [(1%Z, 207%N); ((-1)%Z, 208%N); ((-1)%Z, 209%N); (1%Z, 210%N)] (* OCH2O2H 5914 *);
   [((-1)%Z, 169%N); (1%Z, 170%N); ((-1)%Z, 171%N); (1%Z, 172%N); ((-1)%Z, 173%N); (1%Z, 174%N); (1%Z, 175%N); ((-1)%Z, 176%N); ((-1)%Z, 177%N); (1%Z, 178%N); ((-1)%Z, 179%N); (1%Z, 180%N); ((-1)%Z, 181%N); (1%Z, 182%N); ((-1)%Z, 195%N); (1%Z, 196%N); (1%Z, 223%N); ((-1)%Z, 224%N); (1%Z, 229%N); ((-1)%Z, 230%N); ((-1)%Z, 237%N); (1%Z, 238%N); ((-2)%Z, 239%N); (2%Z, 240%N); (1%Z, 259%N); ((-1)%Z, 260%N); (1%Z, 272%N); ((-1)%Z, 273%N); (1%Z, 278%N); ((-1)%Z, 279%N); (2%Z, 290%N); ((-2)%Z, 291%N); (2%Z, 295%N); (1%Z, 296%N); ((-1)%Z, 297%N); (1%Z, 298%N); ((-1)%Z, 299%N); (1%Z, 302%N); ((-1)%Z, 303%N); ((-1)%Z, 375%N); (1%Z, 376%N); (1%Z, 399%N); ((-1)%Z, 400%N); ((-1)%Z, 461%N); (1%Z, 462%N); ((-1)%Z, 611%N); (1%Z, 612%N); (1%Z, 619%N); ((-1)%Z, 620%N); ((-1)%Z, 757%N); (1%Z, 758%N); ((-1)%Z, 785%N); (1%Z, 786%N); ((-1)%Z, 803%N); (1%Z, 804%N); (1%Z, 821%N); ((-1)%Z, 822%N); ((-1)%Z, 837%N); (1%Z, 838%N); ((-1)%Z, 847%N); (1%Z, 848%N); ((-1)%Z, 862%N); (1%Z, 863%N); ((-1)%Z, 891%N); (1%Z, 892%N); ((-1)%Z, 919%N); (1%Z, 920%N); ((-1)%Z, 921%N); (1%Z, 922%N); ((-1)%Z, 935%N); (1%Z, 936%N)] (* CH3O 5916 *);
   [((-1)%Z, 72%N); (1%Z, 73%N); ((-1)%Z, 144%N); (1%Z, 145%N); ((-1)%Z, 162%N); ((-1)%Z, 175%N); (1%Z, 176%N); ((-1)%Z, 177%N); (1%Z, 178%N); (1%Z, 215%N); ((-1)%Z, 216%N); ((-1)%Z, 235%N); (1%Z, 236%N); ((-1)%Z, 241%N); (1%Z, 242%N); (1%Z, 243%N); ((-1)%Z, 244%N); (1%Z, 245%N); ((-1)%Z, 246%N); (1%Z, 247%N); ((-1)%Z, 248%N); (1%Z, 249%N); ((-1)%Z, 250%N); (2%Z, 251%N); ((-2)%Z, 252%N); ((-1)%Z, 253%N); (1%Z, 254%N); ((-1)%Z, 255%N); (1%Z, 256%N); ((-1)%Z, 257%N); (1%Z, 258%N); ((-1)%Z, 259%N); (1%Z, 260%N); ((-1)%Z, 261%N); (1%Z, 262%N); ((-1)%Z, 272%N); (1%Z, 273%N); ((-1)%Z, 274%N); (1%Z, 275%N); ((-1)%Z, 276%N); (1%Z, 277%N); ((-1)%Z, 278%N); (1%Z, 279%N); ((-1)%Z, 280%N); (1%Z, 281%N); ((-1)%Z, 282%N); (1%Z, 283%N); (1%Z, 286%N); ((-1)%Z, 287%N); ((-1)%Z, 290%N); (1%Z, 291%N); (1%Z, 316%N); ((-1)%Z, 317%N); (1%Z, 329%N); ((-1)%Z, 330%N); ((-2)%Z, 357%N); (2%Z, 358%N); ((-1)%Z, 369%N); (1%Z, 370%N); (1%Z, 379%N); ((-1)%Z, 380%N); ((-1)%Z, 389%N); (1%Z, 390%N); ((-2)%Z, 391%N); (2%Z, 392%N); ((-1)%Z, 403%N); (1%Z, 404%N); (1%Z, 409%N); ((-1)%Z, 410%N); (1%Z, 445%N); ((-1)%Z, 446%N); ((-1)%Z, 459%N); (1%Z, 460%N); (1%Z, 467%N); ((-1)%Z, 468%N); ((-1)%Z, 481%N); (1%Z, 482%N); (1%Z, 489%N); ((-1)%Z, 490%N); (1%Z, 493%N); ((-1)%Z, 494%N); ((-1)%Z, 499%N); (1%Z, 500%N); (1%Z, 507%N); ((-1)%Z, 508%N); (1%Z, 515%N); ((-1)%Z, 516%N); (1%Z, 519%N); ((-1)%Z, 520%N); (1%Z, 541%N); ((-1)%Z, 542%N); ((-1)%Z, 551%N); (1%Z, 552%N); (1%Z, 573%N); ((-1)%Z, 574%N); (1%Z, 579%N); ((-1)%Z, 580%N); ((-1)%Z, 593%N); (1%Z, 594%N); ((-1)%Z, 607%N); (1%Z, 608%N); ((-1)%Z, 627%N); (1%Z, 628%N); ((-1)%Z, 636%N); (1%Z, 637%N); (1%Z, 668%N); ((-1)%Z, 669%N); (1%Z, 684%N); ((-1)%Z, 685%N); ((-1)%Z, 722%N); (1%Z, 723%N); ((-1)%Z, 724%N); (1%Z, 725%N); ((-1)%Z, 726%N); (1%Z, 727%N); (1%Z, 747%N); ((-1)%Z, 748%N); ((-1)%Z, 755%N); (1%Z, 756%N); ((-1)%Z, 765%N); (1%Z, 766%N); ((-1)%Z, 781%N); (1%Z, 782%N); ((-1)%Z, 799%N); (1%Z, 800%N); (1%Z, 821%N); ((-1)%Z, 822%N); ((-1)%Z, 833%N); (1%Z, 834%N); (1%Z, 845%N); ((-1)%Z, 846%N); ((-1)%Z, 893%N); (1%Z, 894%N); ((-1)%Z, 915%N); (1%Z, 916%N); ((-1)%Z, 917%N); (1%Z, 918%N); ((-1)%Z, 933%N); (1%Z, 934%N)] (* CH3 5930 *);
   [((-1)%Z, 108%N); (1%Z, 109%N); (1%Z, 116%N); ((-1)%Z, 117%N); (1%Z, 118%N); ((-1)%Z, 119%N); (1%Z, 120%N); ((-1)%Z, 121%N); (1%Z, 122%N); ((-1)%Z, 123%N); (1%Z, 124%N); ((-1)%Z, 125%N); (1%Z, 126%N); ((-1)%Z, 127%N); (1%Z, 128%N); ((-1)%Z, 129%N); (1%Z, 130%N); ((-1)%Z, 131%N); (1%Z, 132%N); ((-1)%Z, 133%N); (1%Z, 308%N); ((-1)%Z, 309%N); (1%Z, 335%N); ((-1)%Z, 336%N); (1%Z, 337%N); ((-1)%Z, 338%N); (1%Z, 339%N); ((-1)%Z, 340%N); ((-1)%Z, 341%N); (1%Z, 342%N); ((-1)%Z, 347%N); (1%Z, 348%N); ((-1)%Z, 349%N); (1%Z, 350%N); ((-1)%Z, 351%N); (1%Z, 352%N); ((-1)%Z, 353%N); (1%Z, 354%N); ((-1)%Z, 355%N); (1%Z, 356%N); ((-1)%Z, 377%N); (1%Z, 378%N); ((-1)%Z, 561%N); (1%Z, 562%N); ((-1)%Z, 563%N); (1%Z, 564%N); ((-1)%Z, 565%N); (1%Z, 566%N); ((-1)%Z, 625%N); (1%Z, 626%N); (1%Z, 648%N); ((-1)%Z, 649%N)] (* CH 5956 *);
   [((-1)%Z, 381%N); (1%Z, 382%N); ((-2)%Z, 387%N); (2%Z, 388%N); (1%Z, 389%N); ((-1)%Z, 390%N); (1%Z, 393%N); ((-1)%Z, 394%N); (1%Z, 423%N); ((-1)%Z, 424%N); (1%Z, 425%N); ((-1)%Z, 426%N); (1%Z, 435%N); ((-1)%Z, 436%N); (1%Z, 441%N); ((-1)%Z, 442%N); (1%Z, 553%N); ((-1)%Z, 554%N); (1%Z, 567%N); ((-1)%Z, 568%N); ((-1)%Z, 569%N); (1%Z, 570%N); ((-1)%Z, 571%N); (1%Z, 572%N); ((-1)%Z, 573%N); (1%Z, 574%N); ((-1)%Z, 575%N); (1%Z, 576%N); ((-1)%Z, 577%N); (1%Z, 578%N); ((-1)%Z, 579%N); (1%Z, 580%N); ((-1)%Z, 581%N); (1%Z, 582%N); ((-1)%Z, 583%N); (1%Z, 584%N); ((-1)%Z, 585%N); (1%Z, 586%N); ((-1)%Z, 607%N); (1%Z, 608%N); ((-1)%Z, 609%N); (1%Z, 610%N); ((-1)%Z, 611%N); (1%Z, 612%N); ((-1)%Z, 613%N); (1%Z, 614%N); ((-1)%Z, 615%N); (1%Z, 616%N); ((-1)%Z, 617%N); (1%Z, 618%N); ((-1)%Z, 619%N); (1%Z, 620%N); ((-1)%Z, 621%N); (1%Z, 622%N); ((-1)%Z, 623%N); (1%Z, 624%N); (1%Z, 625%N); ((-1)%Z, 626%N); (1%Z, 627%N); ((-1)%Z, 628%N); (1%Z, 644%N); ((-1)%Z, 645%N); (1%Z, 682%N); ((-1)%Z, 683%N); (1%Z, 783%N); ((-1)%Z, 784%N); (1%Z, 817%N); ((-1)%Z, 818%N)] (* C2H4 5966 *);
   [(1%Z, 395%N); ((-1)%Z, 396%N); (1%Z, 401%N); ((-1)%Z, 402%N); ((-1)%Z, 405%N); (1%Z, 406%N); (1%Z, 429%N); ((-1)%Z, 430%N); (1%Z, 433%N); ((-1)%Z, 434%N); (1%Z, 443%N); ((-1)%Z, 444%N); (1%Z, 447%N); ((-1)%Z, 448%N); ((-1)%Z, 467%N); (1%Z, 468%N); ((-1)%Z, 469%N); (1%Z, 470%N); ((-1)%Z, 471%N); (1%Z, 472%N); ((-1)%Z, 473%N); (1%Z, 474%N); ((-1)%Z, 475%N); (1%Z, 476%N); ((-1)%Z, 477%N); (1%Z, 478%N); ((-1)%Z, 479%N); (1%Z, 480%N); ((-1)%Z, 481%N); (1%Z, 482%N); ((-1)%Z, 483%N); (1%Z, 484%N); ((-1)%Z, 485%N); (1%Z, 486%N); ((-1)%Z, 487%N); (1%Z, 488%N); ((-1)%Z, 489%N); (1%Z, 490%N); ((-1)%Z, 491%N); (1%Z, 492%N); (1%Z, 581%N); ((-1)%Z, 582%N); (1%Z, 603%N); ((-1)%Z, 604%N); (1%Z, 605%N); ((-1)%Z, 606%N); (1%Z, 732%N); ((-1)%Z, 733%N); (1%Z, 743%N); ((-1)%Z, 744%N); ((-1)%Z, 851%N); (1%Z, 852%N); ((-1)%Z, 857%N); (1%Z, 858%N)] (* CH3CHO 5980 *);
   [(1%Z, 465%N); ((-1)%Z, 466%N); (1%Z, 473%N); ((-1)%Z, 474%N); (1%Z, 491%N); ((-1)%Z, 492%N); ((-1)%Z, 517%N); (1%Z, 518%N); ((-1)%Z, 519%N); (1%Z, 520%N); ((-1)%Z, 521%N); (1%Z, 522%N); ((-1)%Z, 523%N); (1%Z, 524%N); ((-1)%Z, 525%N); ((-1)%Z, 526%N); (1%Z, 527%N); (1%Z, 575%N); ((-1)%Z, 576%N); (1%Z, 587%N); ((-1)%Z, 588%N); (1%Z, 589%N); ((-1)%Z, 590%N); (1%Z, 591%N); ((-1)%Z, 592%N); (1%Z, 593%N); ((-1)%Z, 594%N); (1%Z, 595%N); ((-1)%Z, 596%N); (1%Z, 597%N); ((-1)%Z, 598%N); (1%Z, 633%N); ((-1)%Z, 634%N); (1%Z, 939%N); ((-1)%Z, 940%N)] (* CH2CHO 5991 *);
   [(1%Z, 539%N); ((-1)%Z, 540%N); (1%Z, 545%N); ((-1)%Z, 546%N); (1%Z, 547%N); ((-1)%Z, 548%N); ((-1)%Z, 555%N); ((-1)%Z, 556%N); ((-1)%Z, 557%N); (1%Z, 558%N); ((-1)%Z, 559%N); ((-1)%Z, 560%N); (1%Z, 561%N); ((-1)%Z, 562%N); ((-1)%Z, 565%N); (1%Z, 566%N); (1%Z, 650%N); ((-1)%Z, 651%N); (1%Z, 660%N); ((-1)%Z, 661%N)] (* HCCO 5999 *);
   [(1%Z, 513%N); ((-1)%Z, 514%N); ((-1)%Z, 515%N); (1%Z, 516%N)] (* CH3CO2 6004 *);
   [(1%Z, 690%N); ((-1)%Z, 691%N); (1%Z, 692%N); ((-1)%Z, 693%N); (1%Z, 698%N); ((-1)%Z, 699%N); (1%Z, 704%N); ((-1)%Z, 705%N); (1%Z, 712%N); ((-1)%Z, 713%N); (1%Z, 718%N); ((-1)%Z, 719%N); (1%Z, 724%N); ((-1)%Z, 725%N); (1%Z, 730%N); ((-1)%Z, 731%N); ((-1)%Z, 732%N); (1%Z, 733%N); ((-1)%Z, 734%N); (1%Z, 735%N); ((-1)%Z, 736%N); (1%Z, 737%N); ((-1)%Z, 738%N); (1%Z, 739%N); ((-1)%Z, 743%N); (1%Z, 744%N); ((-1)%Z, 745%N); (1%Z, 746%N)] (* SC2H4OH 6006 *);
   [(1%Z, 421%N); ((-1)%Z, 422%N); ((-1)%Z, 431%N); (1%Z, 432%N); ((-1)%Z, 439%N); (1%Z, 440%N); ((-1)%Z, 441%N); (1%Z, 442%N); ((-1)%Z, 443%N); (1%Z, 444%N)] (* C2H4O2H 6013 *);
   [(1%Z, 749%N); ((-1)%Z, 750%N); (1%Z, 751%N); ((-1)%Z, 752%N); (1%Z, 753%N); ((-1)%Z, 754%N); (1%Z, 755%N); ((-1)%Z, 756%N); (1%Z, 757%N); ((-1)%Z, 758%N); (1%Z, 759%N); ((-1)%Z, 760%N); (1%Z, 761%N); ((-1)%Z, 762%N); (1%Z, 763%N); ((-1)%Z, 764%N); (1%Z, 765%N); ((-1)%Z, 766%N); ((-1)%Z, 767%N); (1%Z, 768%N)] (* CH3COCH2 6016 *);
   [(1%Z, 771%N); ((-1)%Z, 772%N); (1%Z, 773%N); ((-1)%Z, 774%N); (1%Z, 775%N); ((-1)%Z, 776%N); (1%Z, 777%N); ((-1)%Z, 778%N); (1%Z, 779%N); ((-1)%Z, 780%N); (1%Z, 781%N); ((-1)%Z, 782%N); (1%Z, 783%N); ((-1)%Z, 784%N); (1%Z, 785%N); ((-1)%Z, 786%N); (1%Z, 787%N); ((-1)%Z, 788%N); (1%Z, 789%N); ((-1)%Z, 790%N)] (* C2H3CO 6021 *);
   [(1%Z, 823%N); ((-1)%Z, 824%N); (1%Z, 825%N); ((-1)%Z, 826%N); (1%Z, 827%N); ((-1)%Z, 828%N); (1%Z, 829%N); ((-1)%Z, 830%N); (1%Z, 831%N); ((-1)%Z, 832%N); (1%Z, 833%N); ((-1)%Z, 834%N); (1%Z, 835%N); ((-1)%Z, 836%N); (1%Z, 837%N); ((-1)%Z, 838%N); (1%Z, 839%N); ((-1)%Z, 840%N); (1%Z, 841%N); ((-1)%Z, 842%N); (1%Z, 843%N); ((-1)%Z, 844%N); ((-1)%Z, 845%N); (1%Z, 846%N); ((-1)%Z, 847%N); (1%Z, 848%N); ((-1)%Z, 849%N); (1%Z, 850%N); ((-1)%Z, 851%N); (1%Z, 852%N); ((-1)%Z, 853%N); (1%Z, 854%N)] (* CH3OCH2 6026 *);
   [(2%Z, 859%N); ((-1)%Z, 860%N); (1%Z, 861%N); (1%Z, 862%N); ((-1)%Z, 863%N); ((-1)%Z, 864%N); (1%Z, 865%N); (1%Z, 866%N); ((-1)%Z, 867%N)] (* CH3OCH2O 6034 *);
   [(1%Z, 879%N); ((-1)%Z, 880%N); (1%Z, 881%N); ((-1)%Z, 882%N); (1%Z, 883%N); ((-1)%Z, 884%N)] (* HOCH2OCO 6037 *);
   [] (* HE 6040 *);
   [] (* C2H3CHOCH2 6042 *);
   [((-1)%Z, 0%N); (1%Z, 1%N); (1%Z, 10%N); ((-1)%Z, 11%N); ((-1)%Z, 16%N); (1%Z, 17%N); ((-1)%Z, 18%N); (1%Z, 19%N); ((-1)%Z, 20%N); (1%Z, 21%N); ((-1)%Z, 24%N); (1%Z, 25%N); (1%Z, 26%N); ((-1)%Z, 27%N); (1%Z, 28%N); ((-1)%Z, 29%N); (1%Z, 30%N); ((-1)%Z, 31%N); (1%Z, 32%N); ((-1)%Z, 33%N); ((-1)%Z, 50%N); (1%Z, 51%N); ((-1)%Z, 60%N); (1%Z, 61%N); ((-1)%Z, 74%N); (1%Z, 75%N); ((-1)%Z, 76%N); (1%Z, 77%N); ((-1)%Z, 100%N); (1%Z, 100%N); ((-1)%Z, 101%N); (1%Z, 101%N); ((-1)%Z, 108%N); (1%Z, 109%N); ((-1)%Z, 114%N); (1%Z, 115%N); ((-1)%Z, 124%N); (1%Z, 124%N); ((-1)%Z, 125%N); (1%Z, 125%N); (1%Z, 156%N); ((-1)%Z, 157%N); ((-1)%Z, 171%N); (1%Z, 172%N); ((-1)%Z, 185%N); (1%Z, 186%N); ((-1)%Z, 187%N); (1%Z, 188%N); (1%Z, 211%N); ((-1)%Z, 212%N); ((-1)%Z, 231%N); (1%Z, 232%N); ((-1)%Z, 269%N); ((-1)%Z, 270%N); (1%Z, 271%N); (1%Z, 274%N); ((-1)%Z, 275%N); ((-1)%Z, 278%N); (1%Z, 279%N); ((-1)%Z, 280%N); (1%Z, 281%N); ((-1)%Z, 282%N); (1%Z, 283%N); (1%Z, 292%N); ((-1)%Z, 293%N); (1%Z, 294%N); (1%Z, 295%N); (1%Z, 298%N); ((-1)%Z, 299%N); (1%Z, 300%N); ((-1)%Z, 301%N); ((-1)%Z, 318%N); ((-1)%Z, 319%N); (1%Z, 320%N); ((-1)%Z, 331%N); (1%Z, 332%N); ((-1)%Z, 333%N); ((-1)%Z, 341%N); (1%Z, 342%N); ((-1)%Z, 345%N); (1%Z, 346%N); ((-1)%Z, 367%N); (1%Z, 368%N); ((-1)%Z, 401%N); (1%Z, 402%N); (1%Z, 413%N); ((-1)%Z, 414%N); ((-1)%Z, 419%N); (1%Z, 420%N); ((-1)%Z, 421%N); (1%Z, 422%N); ((-1)%Z, 423%N); (1%Z, 424%N); ((-1)%Z, 425%N); (1%Z, 426%N); ((-1)%Z, 427%N); (1%Z, 428%N); ((-1)%Z, 429%N); (1%Z, 430%N); ((-1)%Z, 479%N); (1%Z, 480%N); ((-1)%Z, 501%N); (1%Z, 502%N); (1%Z, 503%N); ((-1)%Z, 504%N); ((-1)%Z, 521%N); (1%Z, 522%N); ((-1)%Z, 523%N); (1%Z, 524%N); ((-1)%Z, 525%N); ((-1)%Z, 526%N); (1%Z, 527%N); ((-1)%Z, 559%N); ((-1)%Z, 560%N); ((-1)%Z, 587%N); (1%Z, 588%N); ((-1)%Z, 609%N); (1%Z, 610%N); ((-1)%Z, 631%N); (1%Z, 632%N); ((-1)%Z, 633%N); (1%Z, 634%N); ((-1)%Z, 635%N); ((-1)%Z, 652%N); (1%Z, 653%N); ((-1)%Z, 678%N); (1%Z, 679%N); ((-1)%Z, 688%N); (1%Z, 689%N); ((-1)%Z, 690%N); (1%Z, 691%N); (1%Z, 740%N); ((-1)%Z, 741%N); ((-1)%Z, 743%N); (1%Z, 744%N); ((-1)%Z, 745%N); (1%Z, 746%N); ((-1)%Z, 759%N); (1%Z, 760%N); ((-1)%Z, 767%N); (1%Z, 768%N); ((-1)%Z, 777%N); (1%Z, 778%N); ((-1)%Z, 813%N); (1%Z, 814%N); ((-1)%Z, 835%N); (1%Z, 836%N); ((-1)%Z, 853%N); (1%Z, 854%N); (1%Z, 859%N); ((-1)%Z, 864%N); (1%Z, 865%N); ((-1)%Z, 871%N); (1%Z, 872%N); ((-1)%Z, 895%N); (1%Z, 896%N); ((-1)%Z, 897%N); (1%Z, 898%N)] (* O2 6044 *);
   [((-1)%Z, 90%N); (1%Z, 90%N); ((-1)%Z, 91%N); (1%Z, 91%N); ((-1)%Z, 132%N); (1%Z, 132%N); ((-1)%Z, 133%N); (1%Z, 133%N); ((-1)%Z, 304%N); (1%Z, 304%N); ((-1)%Z, 305%N); (1%Z, 305%N)] (* N2 6071 *);
   [((-1)%Z, 48%N); (1%Z, 49%N); ((-1)%Z, 50%N); (1%Z, 51%N); ((-1)%Z, 52%N); (1%Z, 53%N); ((-1)%Z, 54%N); (1%Z, 55%N); ((-1)%Z, 56%N); (1%Z, 57%N); (1%Z, 58%N); ((-1)%Z, 59%N); (1%Z, 60%N); ((-1)%Z, 61%N); (1%Z, 62%N); ((-1)%Z, 63%N); (1%Z, 64%N); ((-1)%Z, 65%N); (1%Z, 68%N); ((-1)%Z, 69%N); (2%Z, 71%N); (1%Z, 72%N); ((-1)%Z, 73%N); (1%Z, 84%N); ((-1)%Z, 85%N); ((-1)%Z, 104%N); (1%Z, 104%N); ((-1)%Z, 105%N); (1%Z, 105%N); (1%Z, 108%N); ((-1)%Z, 109%N); (1%Z, 110%N); ((-1)%Z, 111%N); ((-1)%Z, 120%N); (1%Z, 120%N); ((-1)%Z, 121%N); (1%Z, 121%N); ((-1)%Z, 136%N); (1%Z, 137%N); (1%Z, 152%N); ((-1)%Z, 153%N); (1%Z, 159%N); (1%Z, 161%N); (1%Z, 162%N); (1%Z, 165%N); (1%Z, 166%N); (1%Z, 268%N); (1%Z, 310%N); ((-1)%Z, 311%N); (1%Z, 318%N); (1%Z, 319%N); ((-1)%Z, 320%N); ((-1)%Z, 323%N); (1%Z, 323%N); ((-1)%Z, 324%N); (1%Z, 324%N); (1%Z, 327%N); ((-1)%Z, 328%N); (1%Z, 334%N); (1%Z, 343%N); ((-1)%Z, 344%N); (1%Z, 345%N); ((-1)%Z, 346%N); (1%Z, 349%N); ((-1)%Z, 350%N); (1%Z, 355%N); ((-1)%Z, 356%N); (1%Z, 469%N); ((-1)%Z, 470%N); (1%Z, 493%N); ((-1)%Z, 494%N); (1%Z, 519%N); ((-1)%Z, 520%N); (1%Z, 525%N); (1%Z, 532%N); ((-1)%Z, 535%N); (1%Z, 536%N); (1%Z, 541%N); ((-1)%Z, 542%N); (1%Z, 549%N); ((-1)%Z, 550%N); (1%Z, 551%N); ((-1)%Z, 552%N); (1%Z, 553%N); ((-1)%Z, 554%N); (2%Z, 555%N); (2%Z, 556%N); (1%Z, 557%N); ((-1)%Z, 558%N); (2%Z, 559%N); (1%Z, 560%N); ((-1)%Z, 561%N); (1%Z, 562%N); (1%Z, 565%N); ((-1)%Z, 566%N); (1%Z, 635%N); (1%Z, 648%N); ((-1)%Z, 649%N); (1%Z, 652%N); ((-1)%Z, 653%N); (1%Z, 658%N); ((-1)%Z, 659%N); (1%Z, 668%N); ((-1)%Z, 669%N); (1%Z, 672%N); ((-1)%Z, 673%N); ((-1)%Z, 789%N); (1%Z, 790%N); ((-1)%Z, 819%N); (1%Z, 820%N); ((-1)%Z, 881%N); (1%Z, 882%N); (1%Z, 889%N); ((-1)%Z, 890%N); ((-1)%Z, 935%N); (1%Z, 936%N)] (* CO 6074 *);
   [(1%Z, 78%N); ((-1)%Z, 79%N); (1%Z, 80%N); ((-1)%Z, 81%N); (1%Z, 841%N); ((-1)%Z, 842%N)] (* HO2CHO 6095 *);
   [((-1)%Z, 80%N); (1%Z, 81%N); (1%Z, 82%N); ((-1)%Z, 83%N); ((-1)%Z, 156%N); (1%Z, 157%N); ((-1)%Z, 163%N); (1%Z, 164%N); ((-1)%Z, 167%N); (1%Z, 168%N); ((-1)%Z, 843%N); (1%Z, 844%N); ((-1)%Z, 877%N); (1%Z, 878%N); ((-1)%Z, 893%N); (1%Z, 894%N)] (* OCHO 6097 *);
   [(1%Z, 148%N); ((-1)%Z, 149%N); ((-1)%Z, 150%N); (1%Z, 151%N); (1%Z, 205%N); ((-1)%Z, 206%N); ((-1)%Z, 213%N); (1%Z, 214%N); ((-1)%Z, 881%N); (1%Z, 882%N)] (* HOCH2O 6101 *);
   [(1%Z, 284%N); ((-1)%Z, 285%N); (1%Z, 286%N); ((-1)%Z, 287%N); (1%Z, 288%N); ((-1)%Z, 289%N); (1%Z, 292%N); ((-1)%Z, 293%N); ((-1)%Z, 302%N); (1%Z, 303%N); (1%Z, 373%N); ((-1)%Z, 374%N); (1%Z, 383%N); ((-1)%Z, 384%N); (1%Z, 455%N); ((-1)%Z, 456%N); (1%Z, 485%N); ((-1)%Z, 486%N); (1%Z, 595%N); ((-1)%Z, 596%N); (1%Z, 613%N); ((-1)%Z, 614%N); (1%Z, 710%N); ((-1)%Z, 711%N); (1%Z, 712%N); ((-1)%Z, 713%N); (1%Z, 714%N); ((-1)%Z, 715%N); (1%Z, 763%N); ((-1)%Z, 764%N); (1%Z, 787%N); ((-1)%Z, 788%N); (1%Z, 805%N); ((-1)%Z, 806%N); (1%Z, 831%N); ((-1)%Z, 832%N); (1%Z, 923%N); ((-1)%Z, 924%N); (1%Z, 925%N); ((-1)%Z, 926%N)] (* CH3O2H 6104 *);
   [((-1)%Z, 251%N); (1%Z, 252%N); (1%Z, 304%N); ((-1)%Z, 305%N); (1%Z, 306%N); ((-1)%Z, 307%N); (1%Z, 321%N); ((-1)%Z, 322%N); (1%Z, 323%N); ((-1)%Z, 324%N); (1%Z, 325%N); ((-1)%Z, 326%N); ((-1)%Z, 329%N); (1%Z, 330%N); ((-1)%Z, 331%N); (1%Z, 332%N); ((-1)%Z, 333%N); ((-1)%Z, 334%N); ((-1)%Z, 335%N); (1%Z, 336%N); ((-1)%Z, 337%N); (1%Z, 338%N); ((-1)%Z, 339%N); (1%Z, 340%N); (1%Z, 377%N); ((-1)%Z, 378%N); ((-1)%Z, 535%N); (1%Z, 536%N); (1%Z, 543%N); ((-1)%Z, 544%N); (1%Z, 658%N); ((-1)%Z, 659%N)] (* CH2 6113 *);
   [(1%Z, 110%N); ((-1)%Z, 111%N); (1%Z, 112%N); ((-1)%Z, 113%N); (1%Z, 114%N); ((-1)%Z, 115%N); ((-1)%Z, 116%N); (1%Z, 117%N); ((-1)%Z, 118%N); (1%Z, 119%N); ((-1)%Z, 120%N); (1%Z, 121%N); ((-1)%Z, 122%N); (1%Z, 123%N); ((-1)%Z, 124%N); (1%Z, 125%N); ((-1)%Z, 126%N); (1%Z, 127%N); ((-1)%Z, 128%N); (1%Z, 129%N); ((-1)%Z, 130%N); (1%Z, 131%N); ((-1)%Z, 132%N); (1%Z, 133%N)] (* CHY 6120 *);
   [(1%Z, 387%N); ((-1)%Z, 388%N); ((-1)%Z, 567%N); (1%Z, 568%N); (1%Z, 571%N); ((-1)%Z, 572%N); (1%Z, 577%N); ((-1)%Z, 578%N); (1%Z, 607%N); ((-1)%Z, 608%N); (1%Z, 609%N); ((-1)%Z, 610%N); (1%Z, 611%N); ((-1)%Z, 612%N); (1%Z, 613%N); ((-1)%Z, 614%N); (1%Z, 615%N); ((-1)%Z, 616%N); (1%Z, 617%N); ((-1)%Z, 618%N); (1%Z, 629%N); ((-1)%Z, 630%N); ((-1)%Z, 631%N); (1%Z, 632%N); ((-1)%Z, 633%N); (1%Z, 634%N); ((-1)%Z, 635%N); ((-1)%Z, 636%N); (1%Z, 637%N); ((-1)%Z, 638%N); (1%Z, 639%N); ((-1)%Z, 640%N); (1%Z, 641%N); ((-1)%Z, 642%N); (1%Z, 643%N); ((-2)%Z, 644%N); (2%Z, 645%N); (1%Z, 672%N); ((-1)%Z, 673%N); ((-1)%Z, 769%N); (1%Z, 770%N); ((-1)%Z, 783%N); (1%Z, 784%N); ((-1)%Z, 789%N); (1%Z, 790%N); ((-1)%Z, 817%N); (1%Z, 818%N)] (* C2H3 6125 *);
   [(1%Z, 583%N); ((-1)%Z, 584%N); ((-1)%Z, 587%N); (1%Z, 588%N); ((-1)%Z, 589%N); (1%Z, 590%N); ((-1)%Z, 591%N); (1%Z, 592%N); ((-1)%Z, 593%N); (1%Z, 594%N); ((-1)%Z, 595%N); (1%Z, 596%N); ((-1)%Z, 597%N); (1%Z, 598%N); ((-1)%Z, 599%N); (1%Z, 600%N); ((-1)%Z, 601%N); (1%Z, 602%N); ((-1)%Z, 603%N); (1%Z, 604%N); ((-1)%Z, 605%N); (1%Z, 606%N); (1%Z, 734%N); ((-1)%Z, 735%N); (1%Z, 745%N); ((-1)%Z, 746%N)] (* C2H3OH 6135 *);
   [(1%Z, 521%N); ((-1)%Z, 522%N); ((-1)%Z, 528%N); (1%Z, 529%N); ((-1)%Z, 530%N); (1%Z, 531%N)] (* O2CH2CHO 6142 *);
   [(1%Z, 664%N); ((-1)%Z, 665%N); ((-1)%Z, 680%N); (1%Z, 681%N)] (* HCCOH 6145 *);
   [((-1)%Z, 682%N); (1%Z, 683%N); ((-1)%Z, 684%N); (1%Z, 685%N); ((-1)%Z, 686%N); (1%Z, 687%N); ((-1)%Z, 688%N); (1%Z, 689%N); ((-1)%Z, 690%N); (1%Z, 691%N); ((-1)%Z, 692%N); (1%Z, 693%N); ((-1)%Z, 694%N); (1%Z, 695%N); ((-1)%Z, 696%N); (1%Z, 697%N); ((-1)%Z, 698%N); (1%Z, 699%N); ((-1)%Z, 700%N); (1%Z, 701%N); ((-1)%Z, 702%N); (1%Z, 703%N); ((-1)%Z, 704%N); (1%Z, 705%N); ((-1)%Z, 706%N); (1%Z, 707%N); ((-1)%Z, 708%N); (1%Z, 709%N); ((-1)%Z, 710%N); (1%Z, 711%N); ((-1)%Z, 712%N); (1%Z, 713%N); ((-1)%Z, 714%N); (1%Z, 715%N); ((-1)%Z, 716%N); (1%Z, 717%N); ((-1)%Z, 718%N); (1%Z, 719%N); ((-1)%Z, 720%N); (1%Z, 721%N); ((-1)%Z, 722%N); (1%Z, 723%N); ((-1)%Z, 724%N); (1%Z, 725%N); ((-1)%Z, 726%N); (1%Z, 727%N); ((-1)%Z, 728%N); (1%Z, 729%N); ((-1)%Z, 730%N); (1%Z, 731%N); (1%Z, 809%N); ((-1)%Z, 810%N)] (* C2H5OH 6147 *);
   [((-1)%Z, 740%N); (1%Z, 741%N); ((-1)%Z, 742%N)] (* O2C2H4OH 6158 *);
   [(1%Z, 427%N); ((-1)%Z, 428%N); (1%Z, 437%N); ((-1)%Z, 438%N); (1%Z, 439%N); ((-1)%Z, 440%N); ((-1)%Z, 445%N); (1%Z, 446%N); ((-1)%Z, 447%N); (1%Z, 448%N); ((-1)%Z, 449%N); (1%Z, 450%N); ((-1)%Z, 451%N); (1%Z, 452%N); ((-1)%Z, 453%N); (1%Z, 454%N); ((-1)%Z, 455%N); (1%Z, 456%N); ((-1)%Z, 457%N); (1%Z, 458%N); ((-1)%Z, 459%N); (1%Z, 460%N); ((-1)%Z, 461%N); (1%Z, 462%N); (1%Z, 619%N); ((-1)%Z, 620%N); (1%Z, 621%N); ((-1)%Z, 622%N); (1%Z, 623%N); ((-1)%Z, 624%N)] (* C2H4O1 6160 *);
   [(1%Z, 767%N); ((-1)%Z, 768%N)] (* CH3COCH2O2 6167 *);
   [(1%Z, 791%N); ((-1)%Z, 792%N); ((-1)%Z, 793%N); (1%Z, 794%N); ((-1)%Z, 795%N); (1%Z, 796%N); ((-1)%Z, 797%N); (1%Z, 798%N); ((-1)%Z, 799%N); (1%Z, 800%N); ((-1)%Z, 801%N); (1%Z, 802%N); ((-1)%Z, 803%N); (1%Z, 804%N); ((-1)%Z, 805%N); (1%Z, 806%N); ((-1)%Z, 807%N); (1%Z, 808%N); ((-1)%Z, 809%N); (1%Z, 810%N); ((-1)%Z, 811%N); (1%Z, 812%N); ((-1)%Z, 813%N); (1%Z, 814%N); ((-1)%Z, 815%N); (1%Z, 816%N); ((-1)%Z, 817%N); (1%Z, 818%N)] (* C2H5CHO 6169 *);
   [((-1)%Z, 839%N); (1%Z, 840%N); (1%Z, 853%N); ((-1)%Z, 854%N); ((-1)%Z, 855%N); (1%Z, 856%N); ((-1)%Z, 857%N); (1%Z, 858%N); ((-2)%Z, 859%N); ((-1)%Z, 868%N); (1%Z, 869%N)] (* CH3OCH2O2 6176 *);
   [(1%Z, 871%N); ((-1)%Z, 872%N); ((-1)%Z, 873%N); (1%Z, 874%N)] (* O2CH2OCH2O2H 6180 *);
   [(1%Z, 864%N); ((-1)%Z, 865%N); ((-1)%Z, 866%N); (1%Z, 867%N); (1%Z, 885%N); ((-1)%Z, 886%N); (1%Z, 887%N); ((-1)%Z, 888%N); ((-1)%Z, 889%N); (1%Z, 890%N); (1%Z, 891%N); ((-1)%Z, 892%N); (1%Z, 893%N); ((-1)%Z, 894%N); ((-1)%Z, 895%N); (1%Z, 896%N); ((-1)%Z, 897%N); (1%Z, 898%N); ((-1)%Z, 899%N); (1%Z, 900%N); ((-1)%Z, 901%N); (1%Z, 902%N); ((-1)%Z, 903%N); (1%Z, 904%N); ((-1)%Z, 905%N); (1%Z, 906%N); ((-1)%Z, 907%N); (1%Z, 908%N); ((-1)%Z, 909%N); (1%Z, 910%N); ((-1)%Z, 911%N); (1%Z, 912%N); ((-1)%Z, 913%N); (1%Z, 914%N); ((-1)%Z, 915%N); (1%Z, 916%N); ((-1)%Z, 917%N); (1%Z, 918%N); ((-1)%Z, 919%N); (1%Z, 920%N); ((-1)%Z, 921%N); (1%Z, 922%N); ((-1)%Z, 923%N); (1%Z, 924%N); ((-1)%Z, 925%N); (1%Z, 926%N); ((-1)%Z, 927%N); (1%Z, 928%N); ((-1)%Z, 929%N); (1%Z, 930%N)] (* CH3OCHO 6182 *);
   [(1%Z, 569%N); ((-1)%Z, 570%N); (1%Z, 640%N); ((-1)%Z, 641%N); (1%Z, 656%N); ((-1)%Z, 657%N); ((-1)%Z, 674%N); (1%Z, 675%N); ((-1)%Z, 676%N); (1%Z, 677%N); ((-1)%Z, 678%N); (1%Z, 679%N)] (* H2CC 6193 *);
   [] (* C3H5OH 6197 *);
   [((-1)%Z, 941%N); (1%Z, 942%N)] (* CH2O2H 6199 *)].

(** AramcoMech_woC3H4_91spec; GetLindRateCoeff is src/equations/ideal_gas_mix/mechanism/AramcoMech_woC3H4_91spec.cpp:6203-6234 *)
Definition aramco91 : tables := mkTables aramco91_weights aramco91_third aramco91_reactions aramco91_production LindFloor.
