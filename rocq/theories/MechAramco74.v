(** The mechanism AramcoMech_DMEonly_74spec: tables transcribed from src/equations/ideal_gas_mix/mechanism/AramcoMech_DMEonly_74spec.cpp and include/fub/equations/ideal_gas_mix/mechanism/AramcoMech_DMEonly_74spec.hpp.
    Decimal and hexadecimal literals of the code are written as the fractions which they denote. *)
From Coq Require Import String List ZArith QArith.
From Verif Require Import MechanismModel.
Import ListNotations.
Local Open Scope Q_scope.

(** The labels of the species without the leading s, include/fub/equations/ideal_gas_mix/mechanism/AramcoMech_DMEonly_74spec.hpp:40-115 *)
Definition aramco74_labels : list string := ["N2"; "CH3OCH3"; "CH4"; "H2"; "O2"; "CO"; "CO2"; "H2O"; "H"; "O"; "OH"; "CH3"; "CH2O"; "C2H6"; "CH3OCH2"; "O2CH2OCH2O2H"; "CH2OCH2O2H"; "HO2"; "H2O2"; "CH3OCH2O2"; "CH3O"; "CH3OH"; "CH3OCH2O"; "OCH2OCHO"; "HO2CH2OCHO"; "HCO"; "O2CHO"; "HOCHO"; "HOCH2O"; "HOCH2OCO"; "CH2OH"; "CH3O2H"; "CH3O2"; "HO2CHO"; "CH3OCH2O2H"; "CH2"; "CH"; "CH3OCHO"; "CH2OCHO"; "C2H4O1X2"; "C2H4"; "C2H3"; "C2H5"; "OHY"; "CH3OCO"; "HOCH2O2H"; "HOCH2O2"; "C2H3CO"; "C2H3CHO"; "CH3CO"; "C2H5O2H"; "C2H5O2"; "CH2CO"; "CH2CHO"; "CH3CO3H"; "CH3CO3"; "H2CC"; "C2H2"; "OCHO"; "SC2H4OH"; "C2H5OH"; "CH3CO2"; "CH3CHO"; "HCCO"; "HCOH"; "C2H3OH"; "C2H5O"; "C2H5CO"; "C2H5CHO"; "C2H"; "CH3COCH3"; "CH3COCH2"; "CH2Y"; "OCH2O2H"; "HE"; "AR"]%string.

(** [getSpeciesNames], src/equations/ideal_gas_mix/mechanism/AramcoMech_DMEonly_74spec.cpp:5263-5279 *)
Definition aramco74_names : list string := ["N2"; "CH3OCH3"; "CH4"; "H2"; "O2"; "CO"; "CO2"; "H2O"; "H"; "O"; "OH"; "CH3"; "CH2O"; "C2H6"; "CH3OCH2"; "O2CH2OCH2O"; "CH2OCH2O2H"; "HO2"; "H2O2"; "CH3OCH2O2"; "CH3O"; "CH3OH"; "CH3OCH2O"; "OCH2OCHO"; "HO2CH2OCHO"; "HCO"; "O2CHO"; "HOCHO"; "HOCH2O"; "HOCH2OCO"; "CH2OH"; "CH3O2H"; "CH3O2"; "HO2CHO"; "CH3OCH2O2H"; "CH2"; "CH"; "CH3OCHO"; "CH2OCHO"; "C2H4O1-2"; "C2H4"; "C2H3"; "C2H5"; "OH*"; "CH3OCO"; "HOCH2O2H"; "HOCH2O2"; "C2H3CO"; "C2H3CHO"; "CH3CO"; "C2H5O2H"; "C2H5O2"; "CH2CO"; "CH2CHO"; "CH3CO3H"; "CH3CO3"; "H2CC"; "C2H2"; "OCHO"; "SC2H4OH"; "C2H5OH"; "CH3CO2"; "CH3CHO"; "HCCO"; "HCOH"; "C2H3OH"; "C2H5O"; "C2H5CO"; "C2H5CHO"; "C2H"; "CH3COCH3"; "CH3COCH2"; "CH2*"; "OCH2O2H"; "HE"; "AR"]%string.

(** [getMolarMass], src/equations/ideal_gas_mix/mechanism/AramcoMech_DMEonly_74spec.cpp:5185-5260 *)
Definition aramco74_weights : list Q :=
  [(7886928847432581 # 281474976710656) (* N2 *);
   (3241747306776625 # 70368744177664) (* CH3OCH3 *);
   (564427697049043 # 35184372088832) (* CH4 *);
   (1134907106097365 # 562949953421312) (* H2 *);
   (32 # 1) (* O2 *);
   (3942057048832737 # 140737488355328) (* CO *);
   (6193856862517985 # 140737488355328) (* CO2 *);
   (2535526590209589 # 140737488355328) (* H2O *);
   (1134907106097365 # 1125899906842624) (* H *);
   (16 # 1) (* O *);
   (4787326403894837 # 281474976710656) (* OH *);
   (2115847399934001 # 140737488355328) (* CH3 *);
   (2112891912678539 # 70368744177664) (* CH2O *);
   (2115847399934001 # 70368744177664) (* C2H6 *);
   (792703903161385 # 17592186044416) (* CH3OCH2 *);
   (1918603810004009 # 17592186044416) (* O2CH2OCH2O2H *);
   (1355653856582697 # 17592186044416) (* CH2OCH2O2H *);
   (4645463015632667 # 140737488355328) (* HO2 *);
   (4787326403894837 # 140737488355328) (* H2O2 *);
   (1355653856582697 # 17592186044416) (* CH3OCH2O2 *);
   (4367647213619249 # 140737488355328) (* CH3O *);
   (1127377650470355 # 35184372088832) (* CH3OH *);
   (1074178879872041 # 17592186044416) (* CH3OCH2O *);
   (5280752038068617 # 70368744177664) (* OCH2OCHO *);
   (3238791819521163 # 35184372088832) (* HO2CH2OCHO *);
   (1020980109273727 # 35184372088832) (* HCO *);
   (2146880016116351 # 35184372088832) (* O2CHO *);
   (3238791819521163 # 70368744177664) (* HOCHO *);
   (6619447027304497 # 140737488355328) (* HOCH2O *);
   (5280752038068617 # 70368744177664) (* HOCH2OCO *);
   (4367647213619249 # 140737488355328) (* CH2OH *);
   (6761310415566667 # 140737488355328) (* CH3O2H *);
   (6619447027304497 # 140737488355328) (* CH3O2 *);
   (4364691726363787 # 70368744177664) (* HO2CHO *);
   (5493547120461873 # 70368744177664) (* CH3OCH2O2H *);
   (3947968023343661 # 281474976710656) (* CH2 *);
   (458030155852415 # 35184372088832) (* CH *);
   (2112891912678539 # 35184372088832) (* CH3OCHO *);
   (4154852131225993 # 70368744177664) (* CH2OCHO *);
   (6199767837028909 # 140737488355328) (* C2H4O1X2 *);
   (3947968023343661 # 140737488355328) (* C2H4 *);
   (7612209270162981 # 281474976710656) (* C2H3 *);
   (8179662823211663 # 281474976710656) (* C2H5 *);
   (4787326403894837 # 281474976710656) (* OHY *);
   (4154852131225993 # 70368744177664) (* CH3OCO *);
   (2253277557312979 # 35184372088832) (* HOCH2O2H *);
   (8871246840989745 # 140737488355328) (* HOCH2O2 *);
   (1937040420978557 # 35184372088832) (* C2H3CO *);
   (3945012536088199 # 70368744177664) (* C2H3CHO *);
   (3028952224383369 # 70368744177664) (* CH3CO *);
   (4367647213619249 # 70368744177664) (* C2H5O2H *);
   (1074178879872041 # 17592186044416) (* C2H5O2 *);
   (739505132563071 # 17592186044416) (* CH2CO *);
   (3028952224383369 # 70368744177664) (* CH2CHO *);
   (2675841866099851 # 35184372088832) (* CH3CO3H *);
   (5280752038068617 # 70368744177664) (* CH3CO3 *);
   (458030155852415 # 17592186044416) (* H2CC *);
   (458030155852415 # 17592186044416) (* C2H2 *);
   (1583930062695039 # 35184372088832) (* OCHO *);
   (792703903161385 # 17592186044416) (* SC2H4OH *);
   (3241747306776625 # 70368744177664) (* C2H5OH *);
   (4154852131225993 # 70368744177664) (* CH3CO2 *);
   (6199767837028909 # 140737488355328) (* CH3CHO *);
   (5774177672242397 # 140737488355328) (* HCCO *);
   (2112891912678539 # 70368744177664) (* HCOH *);
   (6199767837028909 # 140737488355328) (* C2H3OH *);
   (792703903161385 # 17592186044416) (* C2H5O *);
   (8031888460438569 # 140737488355328) (* C2H5CO *);
   (2043437962175185 # 35184372088832) (* C2H5CHO *);
   (3522377858557149 # 140737488355328) (* C2H *);
   (2043437962175185 # 35184372088832) (* CH3COCH3 *);
   (8031888460438569 # 140737488355328) (* CH3COCH2 *);
   (3947968023343661 # 281474976710656) (* CH2Y *);
   (8871246840989745 # 140737488355328) (* OCH2O2H *);
   (5680080587528025 # 281474976710656) (* HE *);
   (5622181184818643 # 140737488355328) (* AR *)].

(** The concentrations of third bodies as combinations of concentrations, src/equations/ideal_gas_mix/mechanism/AramcoMech_DMEonly_74spec.cpp:48-667 *)
Definition aramco74_third : list (list (Q * nat)) :=
  [[((1 # 1)%Q, 0)%nat; ((1 # 1)%Q, 1)%nat; ((2 # 1)%Q, 2)%nat; ((5 # 2)%Q, 3)%nat; ((1 # 1)%Q, 4)%nat; ((4278419646001971 # 2251799813685248)%Q, 5)%nat; ((4278419646001971 # 1125899906842624)%Q, 6)%nat; ((12 # 1)%Q, 7)%nat; ((1 # 1)%Q, 8)%nat; ((1 # 1)%Q, 9)%nat; ((1 # 1)%Q, 10)%nat; ((1 # 1)%Q, 11)%nat; ((1 # 1)%Q, 12)%nat; ((3 # 1)%Q, 13)%nat; ((1 # 1)%Q, 14)%nat; ((1 # 1)%Q, 15)%nat; ((1 # 1)%Q, 16)%nat; ((1 # 1)%Q, 17)%nat; ((1 # 1)%Q, 18)%nat; ((1 # 1)%Q, 19)%nat; ((1 # 1)%Q, 20)%nat; ((1 # 1)%Q, 21)%nat; ((1 # 1)%Q, 22)%nat; ((1 # 1)%Q, 23)%nat; ((1 # 1)%Q, 24)%nat; ((1 # 1)%Q, 25)%nat; ((1 # 1)%Q, 26)%nat; ((1 # 1)%Q, 27)%nat; ((1 # 1)%Q, 28)%nat; ((1 # 1)%Q, 29)%nat; ((1 # 1)%Q, 30)%nat; ((1 # 1)%Q, 31)%nat; ((1 # 1)%Q, 32)%nat; ((1 # 1)%Q, 33)%nat; ((1 # 1)%Q, 34)%nat; ((1 # 1)%Q, 35)%nat; ((1 # 1)%Q, 36)%nat; ((1 # 1)%Q, 37)%nat; ((1 # 1)%Q, 38)%nat; ((1 # 1)%Q, 39)%nat; ((1 # 1)%Q, 40)%nat; ((1 # 1)%Q, 41)%nat; ((1 # 1)%Q, 42)%nat; ((1 # 1)%Q, 43)%nat; ((1 # 1)%Q, 44)%nat; ((1 # 1)%Q, 45)%nat; ((1 # 1)%Q, 46)%nat; ((1 # 1)%Q, 47)%nat; ((1 # 1)%Q, 48)%nat; ((1 # 1)%Q, 49)%nat; ((1 # 1)%Q, 50)%nat; ((1 # 1)%Q, 51)%nat; ((1 # 1)%Q, 52)%nat; ((1 # 1)%Q, 53)%nat; ((1 # 1)%Q, 54)%nat; ((1 # 1)%Q, 55)%nat; ((1 # 1)%Q, 56)%nat; ((1 # 1)%Q, 57)%nat; ((1 # 1)%Q, 58)%nat; ((1 # 1)%Q, 59)%nat; ((1 # 1)%Q, 60)%nat; ((1 # 1)%Q, 61)%nat; ((1 # 1)%Q, 62)%nat; ((1 # 1)%Q, 63)%nat; ((1 # 1)%Q, 64)%nat; ((1 # 1)%Q, 65)%nat; ((1 # 1)%Q, 66)%nat; ((1 # 1)%Q, 67)%nat; ((1 # 1)%Q, 68)%nat; ((1 # 1)%Q, 69)%nat; ((1 # 1)%Q, 70)%nat; ((1 # 1)%Q, 71)%nat; ((1 # 1)%Q, 72)%nat; ((1 # 1)%Q, 73)%nat; ((7475975381435023 # 9007199254740992)%Q, 74)%nat; ((1 # 1)%Q, 75)%nat] (* mM1 *);
   [((1 # 1)%Q, 0)%nat; ((1 # 1)%Q, 1)%nat; ((2 # 1)%Q, 2)%nat; ((5 # 2)%Q, 3)%nat; ((1 # 1)%Q, 4)%nat; ((4278419646001971 # 2251799813685248)%Q, 5)%nat; ((4278419646001971 # 1125899906842624)%Q, 6)%nat; ((12 # 1)%Q, 7)%nat; ((1 # 1)%Q, 8)%nat; ((1 # 1)%Q, 9)%nat; ((1 # 1)%Q, 10)%nat; ((1 # 1)%Q, 11)%nat; ((1 # 1)%Q, 12)%nat; ((3 # 1)%Q, 13)%nat; ((1 # 1)%Q, 14)%nat; ((1 # 1)%Q, 15)%nat; ((1 # 1)%Q, 16)%nat; ((1 # 1)%Q, 17)%nat; ((1 # 1)%Q, 18)%nat; ((1 # 1)%Q, 19)%nat; ((1 # 1)%Q, 20)%nat; ((1 # 1)%Q, 21)%nat; ((1 # 1)%Q, 22)%nat; ((1 # 1)%Q, 23)%nat; ((1 # 1)%Q, 24)%nat; ((1 # 1)%Q, 25)%nat; ((1 # 1)%Q, 26)%nat; ((1 # 1)%Q, 27)%nat; ((1 # 1)%Q, 28)%nat; ((1 # 1)%Q, 29)%nat; ((1 # 1)%Q, 30)%nat; ((1 # 1)%Q, 31)%nat; ((1 # 1)%Q, 32)%nat; ((1 # 1)%Q, 33)%nat; ((1 # 1)%Q, 34)%nat; ((1 # 1)%Q, 35)%nat; ((1 # 1)%Q, 36)%nat; ((1 # 1)%Q, 37)%nat; ((1 # 1)%Q, 38)%nat; ((1 # 1)%Q, 39)%nat; ((1 # 1)%Q, 40)%nat; ((1 # 1)%Q, 41)%nat; ((1 # 1)%Q, 42)%nat; ((1 # 1)%Q, 43)%nat; ((1 # 1)%Q, 44)%nat; ((1 # 1)%Q, 45)%nat; ((1 # 1)%Q, 46)%nat; ((1 # 1)%Q, 47)%nat; ((1 # 1)%Q, 48)%nat; ((1 # 1)%Q, 49)%nat; ((1 # 1)%Q, 50)%nat; ((1 # 1)%Q, 51)%nat; ((1 # 1)%Q, 52)%nat; ((1 # 1)%Q, 53)%nat; ((1 # 1)%Q, 54)%nat; ((1 # 1)%Q, 55)%nat; ((1 # 1)%Q, 56)%nat; ((1 # 1)%Q, 57)%nat; ((1 # 1)%Q, 58)%nat; ((1 # 1)%Q, 59)%nat; ((1 # 1)%Q, 60)%nat; ((1 # 1)%Q, 61)%nat; ((1 # 1)%Q, 62)%nat; ((1 # 1)%Q, 63)%nat; ((1 # 1)%Q, 64)%nat; ((1 # 1)%Q, 65)%nat; ((1 # 1)%Q, 66)%nat; ((1 # 1)%Q, 67)%nat; ((1 # 1)%Q, 68)%nat; ((1 # 1)%Q, 69)%nat; ((1 # 1)%Q, 70)%nat; ((1 # 1)%Q, 71)%nat; ((1 # 1)%Q, 72)%nat; ((1 # 1)%Q, 73)%nat; ((7475975381435023 # 9007199254740992)%Q, 74)%nat; ((7475975381435023 # 9007199254740992)%Q, 75)%nat] (* mM2 *);
   [((1 # 1)%Q, 0)%nat; ((1 # 1)%Q, 1)%nat; ((2 # 1)%Q, 2)%nat; ((5 # 2)%Q, 3)%nat; ((1 # 1)%Q, 4)%nat; ((3 # 2)%Q, 5)%nat; ((2 # 1)%Q, 6)%nat; ((12 # 1)%Q, 7)%nat; ((1 # 1)%Q, 8)%nat; ((1 # 1)%Q, 9)%nat; ((1 # 1)%Q, 10)%nat; ((1 # 1)%Q, 11)%nat; ((1 # 1)%Q, 12)%nat; ((3 # 1)%Q, 13)%nat; ((1 # 1)%Q, 14)%nat; ((1 # 1)%Q, 15)%nat; ((1 # 1)%Q, 16)%nat; ((1 # 1)%Q, 17)%nat; ((1 # 1)%Q, 18)%nat; ((1 # 1)%Q, 19)%nat; ((1 # 1)%Q, 20)%nat; ((1 # 1)%Q, 21)%nat; ((1 # 1)%Q, 22)%nat; ((1 # 1)%Q, 23)%nat; ((1 # 1)%Q, 24)%nat; ((1 # 1)%Q, 25)%nat; ((1 # 1)%Q, 26)%nat; ((1 # 1)%Q, 27)%nat; ((1 # 1)%Q, 28)%nat; ((1 # 1)%Q, 29)%nat; ((1 # 1)%Q, 30)%nat; ((1 # 1)%Q, 31)%nat; ((1 # 1)%Q, 32)%nat; ((1 # 1)%Q, 33)%nat; ((1 # 1)%Q, 34)%nat; ((1 # 1)%Q, 35)%nat; ((1 # 1)%Q, 36)%nat; ((1 # 1)%Q, 37)%nat; ((1 # 1)%Q, 38)%nat; ((1 # 1)%Q, 39)%nat; ((1 # 1)%Q, 40)%nat; ((1 # 1)%Q, 41)%nat; ((1 # 1)%Q, 42)%nat; ((1 # 1)%Q, 43)%nat; ((1 # 1)%Q, 44)%nat; ((1 # 1)%Q, 45)%nat; ((1 # 1)%Q, 46)%nat; ((1 # 1)%Q, 47)%nat; ((1 # 1)%Q, 48)%nat; ((1 # 1)%Q, 49)%nat; ((1 # 1)%Q, 50)%nat; ((1 # 1)%Q, 51)%nat; ((1 # 1)%Q, 52)%nat; ((1 # 1)%Q, 53)%nat; ((1 # 1)%Q, 54)%nat; ((1 # 1)%Q, 55)%nat; ((1 # 1)%Q, 56)%nat; ((1 # 1)%Q, 57)%nat; ((1 # 1)%Q, 58)%nat; ((1 # 1)%Q, 59)%nat; ((1 # 1)%Q, 60)%nat; ((1 # 1)%Q, 61)%nat; ((1 # 1)%Q, 62)%nat; ((1 # 1)%Q, 63)%nat; ((1 # 1)%Q, 64)%nat; ((1 # 1)%Q, 65)%nat; ((1 # 1)%Q, 66)%nat; ((1 # 1)%Q, 67)%nat; ((1 # 1)%Q, 68)%nat; ((1 # 1)%Q, 69)%nat; ((1 # 1)%Q, 70)%nat; ((1 # 1)%Q, 71)%nat; ((1 # 1)%Q, 72)%nat; ((1 # 1)%Q, 73)%nat; ((3 # 4)%Q, 74)%nat; ((3 # 4)%Q, 75)%nat] (* mM3 *);
   [((1 # 1)%Q, 0)%nat; ((1 # 1)%Q, 1)%nat; ((2 # 1)%Q, 2)%nat; ((1643813863990231 # 2251799813685248)%Q, 3)%nat; ((1 # 1)%Q, 4)%nat; ((1 # 1)%Q, 5)%nat; ((1 # 1)%Q, 6)%nat; ((8219069319951155 # 2251799813685248)%Q, 7)%nat; ((1 # 1)%Q, 8)%nat; ((1 # 1)%Q, 9)%nat; ((1 # 1)%Q, 10)%nat; ((1 # 1)%Q, 11)%nat; ((1 # 1)%Q, 12)%nat; ((3 # 1)%Q, 13)%nat; ((1 # 1)%Q, 14)%nat; ((1 # 1)%Q, 15)%nat; ((1 # 1)%Q, 16)%nat; ((1 # 1)%Q, 17)%nat; ((1 # 1)%Q, 18)%nat; ((1 # 1)%Q, 19)%nat; ((1 # 1)%Q, 20)%nat; ((1 # 1)%Q, 21)%nat; ((1 # 1)%Q, 22)%nat; ((1 # 1)%Q, 23)%nat; ((1 # 1)%Q, 24)%nat; ((1 # 1)%Q, 25)%nat; ((1 # 1)%Q, 26)%nat; ((1 # 1)%Q, 27)%nat; ((1 # 1)%Q, 28)%nat; ((1 # 1)%Q, 29)%nat; ((1 # 1)%Q, 30)%nat; ((1 # 1)%Q, 31)%nat; ((1 # 1)%Q, 32)%nat; ((1 # 1)%Q, 33)%nat; ((1 # 1)%Q, 34)%nat; ((1 # 1)%Q, 35)%nat; ((1 # 1)%Q, 36)%nat; ((1 # 1)%Q, 37)%nat; ((1 # 1)%Q, 38)%nat; ((1 # 1)%Q, 39)%nat; ((1 # 1)%Q, 40)%nat; ((1 # 1)%Q, 41)%nat; ((1 # 1)%Q, 42)%nat; ((1 # 1)%Q, 43)%nat; ((1 # 1)%Q, 44)%nat; ((1 # 1)%Q, 45)%nat; ((1 # 1)%Q, 46)%nat; ((1 # 1)%Q, 47)%nat; ((1 # 1)%Q, 48)%nat; ((1 # 1)%Q, 49)%nat; ((1 # 1)%Q, 50)%nat; ((1 # 1)%Q, 51)%nat; ((1 # 1)%Q, 52)%nat; ((1 # 1)%Q, 53)%nat; ((1 # 1)%Q, 54)%nat; ((1 # 1)%Q, 55)%nat; ((1 # 1)%Q, 56)%nat; ((1 # 1)%Q, 57)%nat; ((1 # 1)%Q, 58)%nat; ((1 # 1)%Q, 59)%nat; ((1 # 1)%Q, 60)%nat; ((1 # 1)%Q, 61)%nat; ((1 # 1)%Q, 62)%nat; ((1 # 1)%Q, 63)%nat; ((1 # 1)%Q, 64)%nat; ((1 # 1)%Q, 65)%nat; ((1 # 1)%Q, 66)%nat; ((1 # 1)%Q, 67)%nat; ((1 # 1)%Q, 68)%nat; ((1 # 1)%Q, 69)%nat; ((1 # 1)%Q, 70)%nat; ((1 # 1)%Q, 71)%nat; ((1 # 1)%Q, 72)%nat; ((1 # 1)%Q, 73)%nat; ((1 # 1)%Q, 74)%nat; ((3422735716801577 # 9007199254740992)%Q, 75)%nat] (* mM4 *);
   [((1 # 1)%Q, 0)%nat; ((1 # 1)%Q, 1)%nat; ((2 # 1)%Q, 2)%nat; ((5854679515581645 # 4503599627370496)%Q, 3)%nat; ((1 # 1)%Q, 4)%nat; ((4278419646001971 # 2251799813685248)%Q, 5)%nat; ((4278419646001971 # 1125899906842624)%Q, 6)%nat; ((10 # 1)%Q, 7)%nat; ((1 # 1)%Q, 8)%nat; ((1 # 1)%Q, 9)%nat; ((1 # 1)%Q, 10)%nat; ((1 # 1)%Q, 11)%nat; ((1 # 1)%Q, 12)%nat; ((3 # 1)%Q, 13)%nat; ((1 # 1)%Q, 14)%nat; ((1 # 1)%Q, 15)%nat; ((1 # 1)%Q, 16)%nat; ((1 # 1)%Q, 17)%nat; ((1 # 1)%Q, 18)%nat; ((1 # 1)%Q, 19)%nat; ((1 # 1)%Q, 20)%nat; ((1 # 1)%Q, 21)%nat; ((1 # 1)%Q, 22)%nat; ((1 # 1)%Q, 23)%nat; ((1 # 1)%Q, 24)%nat; ((1 # 1)%Q, 25)%nat; ((1 # 1)%Q, 26)%nat; ((1 # 1)%Q, 27)%nat; ((1 # 1)%Q, 28)%nat; ((1 # 1)%Q, 29)%nat; ((1 # 1)%Q, 30)%nat; ((1 # 1)%Q, 31)%nat; ((1 # 1)%Q, 32)%nat; ((1 # 1)%Q, 33)%nat; ((1 # 1)%Q, 34)%nat; ((1 # 1)%Q, 35)%nat; ((1 # 1)%Q, 36)%nat; ((1 # 1)%Q, 37)%nat; ((1 # 1)%Q, 38)%nat; ((1 # 1)%Q, 39)%nat; ((1 # 1)%Q, 40)%nat; ((1 # 1)%Q, 41)%nat; ((1 # 1)%Q, 42)%nat; ((1 # 1)%Q, 43)%nat; ((1 # 1)%Q, 44)%nat; ((1 # 1)%Q, 45)%nat; ((1 # 1)%Q, 46)%nat; ((1 # 1)%Q, 47)%nat; ((1 # 1)%Q, 48)%nat; ((1 # 1)%Q, 49)%nat; ((1 # 1)%Q, 50)%nat; ((1 # 1)%Q, 51)%nat; ((1 # 1)%Q, 52)%nat; ((1 # 1)%Q, 53)%nat; ((1 # 1)%Q, 54)%nat; ((1 # 1)%Q, 55)%nat; ((1 # 1)%Q, 56)%nat; ((1 # 1)%Q, 57)%nat; ((1 # 1)%Q, 58)%nat; ((1 # 1)%Q, 59)%nat; ((1 # 1)%Q, 60)%nat; ((1 # 1)%Q, 61)%nat; ((1 # 1)%Q, 62)%nat; ((1 # 1)%Q, 63)%nat; ((1 # 1)%Q, 64)%nat; ((1 # 1)%Q, 65)%nat; ((1 # 1)%Q, 66)%nat; ((1 # 1)%Q, 67)%nat; ((1 # 1)%Q, 68)%nat; ((1 # 1)%Q, 69)%nat; ((1 # 1)%Q, 70)%nat; ((1 # 1)%Q, 71)%nat; ((1 # 1)%Q, 72)%nat; ((1 # 1)%Q, 73)%nat] (* mM5 *);
   [((1 # 1)%Q, 75)%nat] (* mM6 *);
   [((1 # 1)%Q, 74)%nat] (* mM7 *);
   [((1 # 1)%Q, 7)%nat] (* mM8 *);
   [((3 # 2)%Q, 0)%nat; ((1 # 1)%Q, 1)%nat; ((1 # 1)%Q, 2)%nat; ((4165829655317709 # 1125899906842624)%Q, 3)%nat; ((5404319552844595 # 4503599627370496)%Q, 4)%nat; ((3152519739159347 # 1125899906842624)%Q, 5)%nat; ((3602879701896397 # 2251799813685248)%Q, 6)%nat; ((1 # 1)%Q, 8)%nat; ((1 # 1)%Q, 9)%nat; ((1 # 1)%Q, 10)%nat; ((1 # 1)%Q, 11)%nat; ((1 # 1)%Q, 12)%nat; ((1 # 1)%Q, 13)%nat; ((1 # 1)%Q, 14)%nat; ((1 # 1)%Q, 15)%nat; ((1 # 1)%Q, 16)%nat; ((1 # 1)%Q, 17)%nat; ((8669429282688205 # 1125899906842624)%Q, 18)%nat; ((1 # 1)%Q, 19)%nat; ((1 # 1)%Q, 20)%nat; ((1 # 1)%Q, 21)%nat; ((1 # 1)%Q, 22)%nat; ((1 # 1)%Q, 23)%nat; ((1 # 1)%Q, 24)%nat; ((1 # 1)%Q, 25)%nat; ((1 # 1)%Q, 26)%nat; ((1 # 1)%Q, 27)%nat; ((1 # 1)%Q, 28)%nat; ((1 # 1)%Q, 29)%nat; ((1 # 1)%Q, 30)%nat; ((1 # 1)%Q, 31)%nat; ((1 # 1)%Q, 32)%nat; ((1 # 1)%Q, 33)%nat; ((1 # 1)%Q, 34)%nat; ((1 # 1)%Q, 35)%nat; ((1 # 1)%Q, 36)%nat; ((1 # 1)%Q, 37)%nat; ((1 # 1)%Q, 38)%nat; ((1 # 1)%Q, 39)%nat; ((1 # 1)%Q, 40)%nat; ((1 # 1)%Q, 41)%nat; ((1 # 1)%Q, 42)%nat; ((1 # 1)%Q, 43)%nat; ((1 # 1)%Q, 44)%nat; ((1 # 1)%Q, 45)%nat; ((1 # 1)%Q, 46)%nat; ((1 # 1)%Q, 47)%nat; ((1 # 1)%Q, 48)%nat; ((1 # 1)%Q, 49)%nat; ((1 # 1)%Q, 50)%nat; ((1 # 1)%Q, 51)%nat; ((1 # 1)%Q, 52)%nat; ((1 # 1)%Q, 53)%nat; ((1 # 1)%Q, 54)%nat; ((1 # 1)%Q, 55)%nat; ((1 # 1)%Q, 56)%nat; ((1 # 1)%Q, 57)%nat; ((1 # 1)%Q, 58)%nat; ((1 # 1)%Q, 59)%nat; ((1 # 1)%Q, 60)%nat; ((1 # 1)%Q, 61)%nat; ((1 # 1)%Q, 62)%nat; ((1 # 1)%Q, 63)%nat; ((1 # 1)%Q, 64)%nat; ((1 # 1)%Q, 65)%nat; ((1 # 1)%Q, 66)%nat; ((1 # 1)%Q, 67)%nat; ((1 # 1)%Q, 68)%nat; ((1 # 1)%Q, 69)%nat; ((1 # 1)%Q, 70)%nat; ((1 # 1)%Q, 71)%nat; ((1 # 1)%Q, 72)%nat; ((1 # 1)%Q, 73)%nat; ((5854679515581645 # 9007199254740992)%Q, 74)%nat; ((1 # 1)%Q, 75)%nat] (* mM9 *);
   [((1 # 1)%Q, 0)%nat; ((1 # 1)%Q, 1)%nat; ((1 # 1)%Q, 2)%nat; ((2 # 1)%Q, 3)%nat; ((1 # 1)%Q, 4)%nat; ((7 # 4)%Q, 5)%nat; ((8106479329266893 # 2251799813685248)%Q, 6)%nat; ((12 # 1)%Q, 7)%nat; ((1 # 1)%Q, 8)%nat; ((1 # 1)%Q, 9)%nat; ((1 # 1)%Q, 10)%nat; ((1 # 1)%Q, 11)%nat; ((1 # 1)%Q, 12)%nat; ((1 # 1)%Q, 13)%nat; ((1 # 1)%Q, 14)%nat; ((1 # 1)%Q, 15)%nat; ((1 # 1)%Q, 16)%nat; ((1 # 1)%Q, 17)%nat; ((1 # 1)%Q, 18)%nat; ((1 # 1)%Q, 19)%nat; ((1 # 1)%Q, 20)%nat; ((1 # 1)%Q, 21)%nat; ((1 # 1)%Q, 22)%nat; ((1 # 1)%Q, 23)%nat; ((1 # 1)%Q, 24)%nat; ((1 # 1)%Q, 25)%nat; ((1 # 1)%Q, 26)%nat; ((1 # 1)%Q, 27)%nat; ((1 # 1)%Q, 28)%nat; ((1 # 1)%Q, 29)%nat; ((1 # 1)%Q, 30)%nat; ((1 # 1)%Q, 31)%nat; ((1 # 1)%Q, 32)%nat; ((1 # 1)%Q, 33)%nat; ((1 # 1)%Q, 34)%nat; ((1 # 1)%Q, 35)%nat; ((1 # 1)%Q, 36)%nat; ((1 # 1)%Q, 37)%nat; ((1 # 1)%Q, 38)%nat; ((1 # 1)%Q, 39)%nat; ((1 # 1)%Q, 40)%nat; ((1 # 1)%Q, 41)%nat; ((1 # 1)%Q, 42)%nat; ((1 # 1)%Q, 43)%nat; ((1 # 1)%Q, 44)%nat; ((1 # 1)%Q, 45)%nat; ((1 # 1)%Q, 46)%nat; ((1 # 1)%Q, 47)%nat; ((1 # 1)%Q, 48)%nat; ((1 # 1)%Q, 49)%nat; ((1 # 1)%Q, 50)%nat; ((1 # 1)%Q, 51)%nat; ((1 # 1)%Q, 52)%nat; ((1 # 1)%Q, 53)%nat; ((1 # 1)%Q, 54)%nat; ((1 # 1)%Q, 55)%nat; ((1 # 1)%Q, 56)%nat; ((1 # 1)%Q, 57)%nat; ((1 # 1)%Q, 58)%nat; ((1 # 1)%Q, 59)%nat; ((1 # 1)%Q, 60)%nat; ((1 # 1)%Q, 61)%nat; ((1 # 1)%Q, 62)%nat; ((1 # 1)%Q, 63)%nat; ((1 # 1)%Q, 64)%nat; ((1 # 1)%Q, 65)%nat; ((1 # 1)%Q, 66)%nat; ((1 # 1)%Q, 67)%nat; ((1 # 1)%Q, 68)%nat; ((1 # 1)%Q, 69)%nat; ((1 # 1)%Q, 70)%nat; ((1 # 1)%Q, 71)%nat; ((1 # 1)%Q, 72)%nat; ((1 # 1)%Q, 73)%nat; ((3152519739159347 # 4503599627370496)%Q, 74)%nat; ((3152519739159347 # 4503599627370496)%Q, 75)%nat] (* mM10 *);
   [((1 # 1)%Q, 0)%nat; ((1 # 1)%Q, 1)%nat; ((2 # 1)%Q, 2)%nat; ((2 # 1)%Q, 3)%nat; ((1 # 1)%Q, 4)%nat; ((3 # 2)%Q, 5)%nat; ((2 # 1)%Q, 6)%nat; ((12 # 1)%Q, 7)%nat; ((1 # 1)%Q, 8)%nat; ((1 # 1)%Q, 9)%nat; ((1 # 1)%Q, 10)%nat; ((1 # 1)%Q, 11)%nat; ((1 # 1)%Q, 12)%nat; ((3 # 1)%Q, 13)%nat; ((1 # 1)%Q, 14)%nat; ((1 # 1)%Q, 15)%nat; ((1 # 1)%Q, 16)%nat; ((1 # 1)%Q, 17)%nat; ((1 # 1)%Q, 18)%nat; ((1 # 1)%Q, 19)%nat; ((1 # 1)%Q, 20)%nat; ((1 # 1)%Q, 21)%nat; ((1 # 1)%Q, 22)%nat; ((1 # 1)%Q, 23)%nat; ((1 # 1)%Q, 24)%nat; ((1 # 1)%Q, 25)%nat; ((1 # 1)%Q, 26)%nat; ((1 # 1)%Q, 27)%nat; ((1 # 1)%Q, 28)%nat; ((1 # 1)%Q, 29)%nat; ((1 # 1)%Q, 30)%nat; ((1 # 1)%Q, 31)%nat; ((1 # 1)%Q, 32)%nat; ((1 # 1)%Q, 33)%nat; ((1 # 1)%Q, 34)%nat; ((1 # 1)%Q, 35)%nat; ((1 # 1)%Q, 36)%nat; ((1 # 1)%Q, 37)%nat; ((1 # 1)%Q, 38)%nat; ((1 # 1)%Q, 39)%nat; ((1 # 1)%Q, 40)%nat; ((1 # 1)%Q, 41)%nat; ((1 # 1)%Q, 42)%nat; ((1 # 1)%Q, 43)%nat; ((1 # 1)%Q, 44)%nat; ((1 # 1)%Q, 45)%nat; ((1 # 1)%Q, 46)%nat; ((1 # 1)%Q, 47)%nat; ((1 # 1)%Q, 48)%nat; ((1 # 1)%Q, 49)%nat; ((1 # 1)%Q, 50)%nat; ((1 # 1)%Q, 51)%nat; ((1 # 1)%Q, 52)%nat; ((1 # 1)%Q, 53)%nat; ((1 # 1)%Q, 54)%nat; ((1 # 1)%Q, 55)%nat; ((1 # 1)%Q, 56)%nat; ((1 # 1)%Q, 57)%nat; ((1 # 1)%Q, 58)%nat; ((1 # 1)%Q, 59)%nat; ((1 # 1)%Q, 60)%nat; ((1 # 1)%Q, 61)%nat; ((1 # 1)%Q, 62)%nat; ((1 # 1)%Q, 63)%nat; ((1 # 1)%Q, 64)%nat; ((1 # 1)%Q, 65)%nat; ((1 # 1)%Q, 66)%nat; ((1 # 1)%Q, 67)%nat; ((1 # 1)%Q, 68)%nat; ((1 # 1)%Q, 69)%nat; ((1 # 1)%Q, 70)%nat; ((1 # 1)%Q, 71)%nat; ((1 # 1)%Q, 72)%nat; ((1 # 1)%Q, 73)%nat; ((1 # 1)%Q, 74)%nat; ((1 # 1)%Q, 75)%nat] (* mM11 *);
   [((1 # 1)%Q, 0)%nat; ((1 # 1)%Q, 1)%nat; ((2 # 1)%Q, 2)%nat; ((2 # 1)%Q, 3)%nat; ((1 # 1)%Q, 4)%nat; ((3 # 2)%Q, 5)%nat; ((2 # 1)%Q, 6)%nat; ((6 # 1)%Q, 7)%nat; ((1 # 1)%Q, 8)%nat; ((1 # 1)%Q, 9)%nat; ((1 # 1)%Q, 10)%nat; ((1 # 1)%Q, 11)%nat; ((1 # 1)%Q, 12)%nat; ((3 # 1)%Q, 13)%nat; ((1 # 1)%Q, 14)%nat; ((1 # 1)%Q, 15)%nat; ((1 # 1)%Q, 16)%nat; ((1 # 1)%Q, 17)%nat; ((1 # 1)%Q, 18)%nat; ((1 # 1)%Q, 19)%nat; ((1 # 1)%Q, 20)%nat; ((1 # 1)%Q, 21)%nat; ((1 # 1)%Q, 22)%nat; ((1 # 1)%Q, 23)%nat; ((1 # 1)%Q, 24)%nat; ((1 # 1)%Q, 25)%nat; ((1 # 1)%Q, 26)%nat; ((1 # 1)%Q, 27)%nat; ((1 # 1)%Q, 28)%nat; ((1 # 1)%Q, 29)%nat; ((1 # 1)%Q, 30)%nat; ((1 # 1)%Q, 31)%nat; ((1 # 1)%Q, 32)%nat; ((1 # 1)%Q, 33)%nat; ((1 # 1)%Q, 34)%nat; ((1 # 1)%Q, 35)%nat; ((1 # 1)%Q, 36)%nat; ((1 # 1)%Q, 37)%nat; ((1 # 1)%Q, 38)%nat; ((1 # 1)%Q, 39)%nat; ((1 # 1)%Q, 40)%nat; ((1 # 1)%Q, 41)%nat; ((1 # 1)%Q, 42)%nat; ((1 # 1)%Q, 43)%nat; ((1 # 1)%Q, 44)%nat; ((1 # 1)%Q, 45)%nat; ((1 # 1)%Q, 46)%nat; ((1 # 1)%Q, 47)%nat; ((1 # 1)%Q, 48)%nat; ((1 # 1)%Q, 49)%nat; ((1 # 1)%Q, 50)%nat; ((1 # 1)%Q, 51)%nat; ((1 # 1)%Q, 52)%nat; ((1 # 1)%Q, 53)%nat; ((1 # 1)%Q, 54)%nat; ((1 # 1)%Q, 55)%nat; ((1 # 1)%Q, 56)%nat; ((1 # 1)%Q, 57)%nat; ((1 # 1)%Q, 58)%nat; ((1 # 1)%Q, 59)%nat; ((1 # 1)%Q, 60)%nat; ((1 # 1)%Q, 61)%nat; ((1 # 1)%Q, 62)%nat; ((1 # 1)%Q, 63)%nat; ((1 # 1)%Q, 64)%nat; ((1 # 1)%Q, 65)%nat; ((1 # 1)%Q, 66)%nat; ((1 # 1)%Q, 67)%nat; ((1 # 1)%Q, 68)%nat; ((1 # 1)%Q, 69)%nat; ((1 # 1)%Q, 70)%nat; ((1 # 1)%Q, 71)%nat; ((1 # 1)%Q, 72)%nat; ((1 # 1)%Q, 73)%nat; ((3152519739159347 # 4503599627370496)%Q, 74)%nat; ((3152519739159347 # 4503599627370496)%Q, 75)%nat] (* mM12 *);
   [((1 # 1)%Q, 0)%nat; ((1 # 1)%Q, 1)%nat; ((2 # 1)%Q, 2)%nat; ((2 # 1)%Q, 3)%nat; ((1 # 1)%Q, 4)%nat; ((3 # 2)%Q, 5)%nat; ((2 # 1)%Q, 6)%nat; ((6 # 1)%Q, 7)%nat; ((1 # 1)%Q, 8)%nat; ((1 # 1)%Q, 9)%nat; ((1 # 1)%Q, 10)%nat; ((1 # 1)%Q, 11)%nat; ((1 # 1)%Q, 12)%nat; ((3 # 1)%Q, 13)%nat; ((1 # 1)%Q, 14)%nat; ((1 # 1)%Q, 15)%nat; ((1 # 1)%Q, 16)%nat; ((1 # 1)%Q, 17)%nat; ((1 # 1)%Q, 18)%nat; ((1 # 1)%Q, 19)%nat; ((1 # 1)%Q, 20)%nat; ((1 # 1)%Q, 21)%nat; ((1 # 1)%Q, 22)%nat; ((1 # 1)%Q, 23)%nat; ((1 # 1)%Q, 24)%nat; ((1 # 1)%Q, 25)%nat; ((1 # 1)%Q, 26)%nat; ((1 # 1)%Q, 27)%nat; ((1 # 1)%Q, 28)%nat; ((1 # 1)%Q, 29)%nat; ((1 # 1)%Q, 30)%nat; ((1 # 1)%Q, 31)%nat; ((1 # 1)%Q, 32)%nat; ((1 # 1)%Q, 33)%nat; ((1 # 1)%Q, 34)%nat; ((1 # 1)%Q, 35)%nat; ((1 # 1)%Q, 36)%nat; ((1 # 1)%Q, 37)%nat; ((1 # 1)%Q, 38)%nat; ((1 # 1)%Q, 39)%nat; ((1 # 1)%Q, 40)%nat; ((1 # 1)%Q, 41)%nat; ((1 # 1)%Q, 42)%nat; ((1 # 1)%Q, 43)%nat; ((1 # 1)%Q, 44)%nat; ((1 # 1)%Q, 45)%nat; ((1 # 1)%Q, 46)%nat; ((1 # 1)%Q, 47)%nat; ((1 # 1)%Q, 48)%nat; ((1 # 1)%Q, 49)%nat; ((1 # 1)%Q, 50)%nat; ((1 # 1)%Q, 51)%nat; ((1 # 1)%Q, 52)%nat; ((1 # 1)%Q, 53)%nat; ((1 # 1)%Q, 54)%nat; ((1 # 1)%Q, 55)%nat; ((1 # 1)%Q, 56)%nat; ((1 # 1)%Q, 57)%nat; ((1 # 1)%Q, 58)%nat; ((1 # 1)%Q, 59)%nat; ((1 # 1)%Q, 60)%nat; ((1 # 1)%Q, 61)%nat; ((1 # 1)%Q, 62)%nat; ((1 # 1)%Q, 63)%nat; ((1 # 1)%Q, 64)%nat; ((1 # 1)%Q, 65)%nat; ((1 # 1)%Q, 66)%nat; ((1 # 1)%Q, 67)%nat; ((1 # 1)%Q, 68)%nat; ((1 # 1)%Q, 69)%nat; ((1 # 1)%Q, 70)%nat; ((1 # 1)%Q, 71)%nat; ((1 # 1)%Q, 72)%nat; ((1 # 1)%Q, 73)%nat; ((3152519739159347 # 4503599627370496)%Q, 74)%nat; ((3152519739159347 # 4503599627370496)%Q, 75)%nat] (* mM13 *);
   [((1 # 1)%Q, 0)%nat; ((1 # 1)%Q, 1)%nat; ((2 # 1)%Q, 2)%nat; ((2 # 1)%Q, 3)%nat; ((1 # 1)%Q, 4)%nat; ((3 # 2)%Q, 5)%nat; ((2 # 1)%Q, 6)%nat; ((6 # 1)%Q, 7)%nat; ((1 # 1)%Q, 8)%nat; ((1 # 1)%Q, 9)%nat; ((1 # 1)%Q, 10)%nat; ((1 # 1)%Q, 11)%nat; ((1 # 1)%Q, 12)%nat; ((3 # 1)%Q, 13)%nat; ((1 # 1)%Q, 14)%nat; ((1 # 1)%Q, 15)%nat; ((1 # 1)%Q, 16)%nat; ((1 # 1)%Q, 17)%nat; ((1 # 1)%Q, 18)%nat; ((1 # 1)%Q, 19)%nat; ((1 # 1)%Q, 20)%nat; ((1 # 1)%Q, 21)%nat; ((1 # 1)%Q, 22)%nat; ((1 # 1)%Q, 23)%nat; ((1 # 1)%Q, 24)%nat; ((1 # 1)%Q, 25)%nat; ((1 # 1)%Q, 26)%nat; ((1 # 1)%Q, 27)%nat; ((1 # 1)%Q, 28)%nat; ((1 # 1)%Q, 29)%nat; ((1 # 1)%Q, 30)%nat; ((1 # 1)%Q, 31)%nat; ((1 # 1)%Q, 32)%nat; ((1 # 1)%Q, 33)%nat; ((1 # 1)%Q, 34)%nat; ((1 # 1)%Q, 35)%nat; ((1 # 1)%Q, 36)%nat; ((1 # 1)%Q, 37)%nat; ((1 # 1)%Q, 38)%nat; ((1 # 1)%Q, 39)%nat; ((1 # 1)%Q, 40)%nat; ((1 # 1)%Q, 41)%nat; ((1 # 1)%Q, 42)%nat; ((1 # 1)%Q, 43)%nat; ((1 # 1)%Q, 44)%nat; ((1 # 1)%Q, 45)%nat; ((1 # 1)%Q, 46)%nat; ((1 # 1)%Q, 47)%nat; ((1 # 1)%Q, 48)%nat; ((1 # 1)%Q, 49)%nat; ((1 # 1)%Q, 50)%nat; ((1 # 1)%Q, 51)%nat; ((1 # 1)%Q, 52)%nat; ((1 # 1)%Q, 53)%nat; ((1 # 1)%Q, 54)%nat; ((1 # 1)%Q, 55)%nat; ((1 # 1)%Q, 56)%nat; ((1 # 1)%Q, 57)%nat; ((1 # 1)%Q, 58)%nat; ((1 # 1)%Q, 59)%nat; ((1 # 1)%Q, 60)%nat; ((1 # 1)%Q, 61)%nat; ((1 # 1)%Q, 62)%nat; ((1 # 1)%Q, 63)%nat; ((1 # 1)%Q, 64)%nat; ((1 # 1)%Q, 65)%nat; ((1 # 1)%Q, 66)%nat; ((1 # 1)%Q, 67)%nat; ((1 # 1)%Q, 68)%nat; ((1 # 1)%Q, 69)%nat; ((1 # 1)%Q, 70)%nat; ((1 # 1)%Q, 71)%nat; ((1 # 1)%Q, 72)%nat; ((1 # 1)%Q, 73)%nat; ((1 # 1)%Q, 74)%nat; ((1 # 1)%Q, 75)%nat] (* mM14 *);
   [((1 # 1)%Q, 0)%nat; ((1 # 1)%Q, 1)%nat; ((2 # 1)%Q, 2)%nat; ((2 # 1)%Q, 3)%nat; ((1 # 1)%Q, 4)%nat; ((3 # 2)%Q, 5)%nat; ((2 # 1)%Q, 6)%nat; ((6 # 1)%Q, 7)%nat; ((1 # 1)%Q, 8)%nat; ((1 # 1)%Q, 9)%nat; ((1 # 1)%Q, 10)%nat; ((1 # 1)%Q, 11)%nat; ((1 # 1)%Q, 12)%nat; ((3 # 1)%Q, 13)%nat; ((1 # 1)%Q, 14)%nat; ((1 # 1)%Q, 15)%nat; ((1 # 1)%Q, 16)%nat; ((1 # 1)%Q, 17)%nat; ((1 # 1)%Q, 18)%nat; ((1 # 1)%Q, 19)%nat; ((1 # 1)%Q, 20)%nat; ((1 # 1)%Q, 21)%nat; ((1 # 1)%Q, 22)%nat; ((1 # 1)%Q, 23)%nat; ((1 # 1)%Q, 24)%nat; ((1 # 1)%Q, 25)%nat; ((1 # 1)%Q, 26)%nat; ((1 # 1)%Q, 27)%nat; ((1 # 1)%Q, 28)%nat; ((1 # 1)%Q, 29)%nat; ((1 # 1)%Q, 30)%nat; ((1 # 1)%Q, 31)%nat; ((1 # 1)%Q, 32)%nat; ((1 # 1)%Q, 33)%nat; ((1 # 1)%Q, 34)%nat; ((1 # 1)%Q, 35)%nat; ((1 # 1)%Q, 36)%nat; ((1 # 1)%Q, 37)%nat; ((1 # 1)%Q, 38)%nat; ((1 # 1)%Q, 39)%nat; ((1 # 1)%Q, 40)%nat; ((1 # 1)%Q, 41)%nat; ((1 # 1)%Q, 42)%nat; ((1 # 1)%Q, 43)%nat; ((1 # 1)%Q, 44)%nat; ((1 # 1)%Q, 45)%nat; ((1 # 1)%Q, 46)%nat; ((1 # 1)%Q, 47)%nat; ((1 # 1)%Q, 48)%nat; ((1 # 1)%Q, 49)%nat; ((1 # 1)%Q, 50)%nat; ((1 # 1)%Q, 51)%nat; ((1 # 1)%Q, 52)%nat; ((1 # 1)%Q, 53)%nat; ((1 # 1)%Q, 54)%nat; ((1 # 1)%Q, 55)%nat; ((1 # 1)%Q, 56)%nat; ((1 # 1)%Q, 57)%nat; ((1 # 1)%Q, 58)%nat; ((1 # 1)%Q, 59)%nat; ((1 # 1)%Q, 60)%nat; ((1 # 1)%Q, 61)%nat; ((1 # 1)%Q, 62)%nat; ((1 # 1)%Q, 63)%nat; ((1 # 1)%Q, 64)%nat; ((1 # 1)%Q, 65)%nat; ((1 # 1)%Q, 66)%nat; ((1 # 1)%Q, 67)%nat; ((1 # 1)%Q, 68)%nat; ((1 # 1)%Q, 69)%nat; ((1 # 1)%Q, 70)%nat; ((1 # 1)%Q, 71)%nat; ((1 # 1)%Q, 72)%nat; ((1 # 1)%Q, 73)%nat; ((1 # 1)%Q, 74)%nat; ((1 # 1)%Q, 75)%nat] (* mM15 *);
   [((1 # 1)%Q, 0)%nat; ((1 # 1)%Q, 1)%nat; ((1 # 1)%Q, 2)%nat; ((1 # 1)%Q, 3)%nat; ((1 # 1)%Q, 4)%nat; ((1 # 1)%Q, 5)%nat; ((1 # 1)%Q, 6)%nat; ((1 # 1)%Q, 7)%nat; ((1 # 1)%Q, 8)%nat; ((1 # 1)%Q, 9)%nat; ((1 # 1)%Q, 10)%nat; ((1 # 1)%Q, 11)%nat; ((1 # 1)%Q, 12)%nat; ((1 # 1)%Q, 13)%nat; ((1 # 1)%Q, 14)%nat; ((1 # 1)%Q, 15)%nat; ((1 # 1)%Q, 16)%nat; ((1 # 1)%Q, 17)%nat; ((1 # 1)%Q, 18)%nat; ((1 # 1)%Q, 19)%nat; ((1 # 1)%Q, 20)%nat; ((1 # 1)%Q, 21)%nat; ((1 # 1)%Q, 22)%nat; ((1 # 1)%Q, 23)%nat; ((1 # 1)%Q, 24)%nat; ((1 # 1)%Q, 25)%nat; ((1 # 1)%Q, 26)%nat; ((1 # 1)%Q, 27)%nat; ((1 # 1)%Q, 28)%nat; ((1 # 1)%Q, 29)%nat; ((1 # 1)%Q, 30)%nat; ((1 # 1)%Q, 31)%nat; ((1 # 1)%Q, 32)%nat; ((1 # 1)%Q, 33)%nat; ((1 # 1)%Q, 34)%nat; ((1 # 1)%Q, 35)%nat; ((1 # 1)%Q, 36)%nat; ((1 # 1)%Q, 37)%nat; ((1 # 1)%Q, 38)%nat; ((1 # 1)%Q, 39)%nat; ((1 # 1)%Q, 40)%nat; ((1 # 1)%Q, 41)%nat; ((1 # 1)%Q, 42)%nat; ((1 # 1)%Q, 43)%nat; ((1 # 1)%Q, 44)%nat; ((1 # 1)%Q, 45)%nat; ((1 # 1)%Q, 46)%nat; ((1 # 1)%Q, 47)%nat; ((1 # 1)%Q, 48)%nat; ((1 # 1)%Q, 49)%nat; ((1 # 1)%Q, 50)%nat; ((1 # 1)%Q, 51)%nat; ((1 # 1)%Q, 52)%nat; ((1 # 1)%Q, 53)%nat; ((1 # 1)%Q, 54)%nat; ((1 # 1)%Q, 55)%nat; ((1 # 1)%Q, 56)%nat; ((1 # 1)%Q, 57)%nat; ((1 # 1)%Q, 58)%nat; ((1 # 1)%Q, 59)%nat; ((1 # 1)%Q, 60)%nat; ((1 # 1)%Q, 61)%nat; ((1 # 1)%Q, 62)%nat; ((1 # 1)%Q, 63)%nat; ((1 # 1)%Q, 64)%nat; ((1 # 1)%Q, 65)%nat; ((1 # 1)%Q, 66)%nat; ((1 # 1)%Q, 67)%nat; ((1 # 1)%Q, 68)%nat; ((1 # 1)%Q, 69)%nat; ((1 # 1)%Q, 70)%nat; ((1 # 1)%Q, 71)%nat; ((1 # 1)%Q, 72)%nat; ((1 # 1)%Q, 73)%nat; ((1 # 1)%Q, 74)%nat; ((1 # 1)%Q, 75)%nat] (* mM16 *);
   [((1 # 1)%Q, 0)%nat; ((1 # 1)%Q, 1)%nat; ((1 # 1)%Q, 2)%nat; ((1 # 1)%Q, 3)%nat; ((1 # 1)%Q, 4)%nat; ((1 # 1)%Q, 5)%nat; ((1 # 1)%Q, 6)%nat; ((1 # 1)%Q, 7)%nat; ((1 # 1)%Q, 8)%nat; ((1 # 1)%Q, 9)%nat; ((1 # 1)%Q, 10)%nat; ((1 # 1)%Q, 11)%nat; ((1 # 1)%Q, 12)%nat; ((1 # 1)%Q, 13)%nat; ((1 # 1)%Q, 14)%nat; ((1 # 1)%Q, 15)%nat; ((1 # 1)%Q, 16)%nat; ((1 # 1)%Q, 17)%nat; ((1 # 1)%Q, 18)%nat; ((1 # 1)%Q, 19)%nat; ((1 # 1)%Q, 20)%nat; ((1 # 1)%Q, 21)%nat; ((1 # 1)%Q, 22)%nat; ((1 # 1)%Q, 23)%nat; ((1 # 1)%Q, 24)%nat; ((1 # 1)%Q, 25)%nat; ((1 # 1)%Q, 26)%nat; ((1 # 1)%Q, 27)%nat; ((1 # 1)%Q, 28)%nat; ((1 # 1)%Q, 29)%nat; ((1 # 1)%Q, 30)%nat; ((1 # 1)%Q, 31)%nat; ((1 # 1)%Q, 32)%nat; ((1 # 1)%Q, 33)%nat; ((1 # 1)%Q, 34)%nat; ((1 # 1)%Q, 35)%nat; ((1 # 1)%Q, 36)%nat; ((1 # 1)%Q, 37)%nat; ((1 # 1)%Q, 38)%nat; ((1 # 1)%Q, 39)%nat; ((1 # 1)%Q, 40)%nat; ((1 # 1)%Q, 41)%nat; ((1 # 1)%Q, 42)%nat; ((1 # 1)%Q, 43)%nat; ((1 # 1)%Q, 44)%nat; ((1 # 1)%Q, 45)%nat; ((1 # 1)%Q, 46)%nat; ((1 # 1)%Q, 47)%nat; ((1 # 1)%Q, 48)%nat; ((1 # 1)%Q, 49)%nat; ((1 # 1)%Q, 50)%nat; ((1 # 1)%Q, 51)%nat; ((1 # 1)%Q, 52)%nat; ((1 # 1)%Q, 53)%nat; ((1 # 1)%Q, 54)%nat; ((1 # 1)%Q, 55)%nat; ((1 # 1)%Q, 56)%nat; ((1 # 1)%Q, 57)%nat; ((1 # 1)%Q, 58)%nat; ((1 # 1)%Q, 59)%nat; ((1 # 1)%Q, 60)%nat; ((1 # 1)%Q, 61)%nat; ((1 # 1)%Q, 62)%nat; ((1 # 1)%Q, 63)%nat; ((1 # 1)%Q, 64)%nat; ((1 # 1)%Q, 65)%nat; ((1 # 1)%Q, 66)%nat; ((1 # 1)%Q, 67)%nat; ((1 # 1)%Q, 68)%nat; ((1 # 1)%Q, 69)%nat; ((1 # 1)%Q, 70)%nat; ((1 # 1)%Q, 71)%nat; ((1 # 1)%Q, 72)%nat; ((1 # 1)%Q, 73)%nat; ((1 # 1)%Q, 74)%nat; ((1 # 1)%Q, 75)%nat] (* mM17 *);
   [((1 # 1)%Q, 0)%nat; ((1 # 1)%Q, 1)%nat; ((1 # 1)%Q, 2)%nat; ((1 # 1)%Q, 3)%nat; ((1 # 1)%Q, 4)%nat; ((1 # 1)%Q, 5)%nat; ((1 # 1)%Q, 6)%nat; ((1 # 1)%Q, 7)%nat; ((1 # 1)%Q, 8)%nat; ((1 # 1)%Q, 9)%nat; ((1 # 1)%Q, 10)%nat; ((1 # 1)%Q, 11)%nat; ((1 # 1)%Q, 12)%nat; ((1 # 1)%Q, 13)%nat; ((1 # 1)%Q, 14)%nat; ((1 # 1)%Q, 15)%nat; ((1 # 1)%Q, 16)%nat; ((1 # 1)%Q, 17)%nat; ((1 # 1)%Q, 18)%nat; ((1 # 1)%Q, 19)%nat; ((1 # 1)%Q, 20)%nat; ((1 # 1)%Q, 21)%nat; ((1 # 1)%Q, 22)%nat; ((1 # 1)%Q, 23)%nat; ((1 # 1)%Q, 24)%nat; ((1 # 1)%Q, 25)%nat; ((1 # 1)%Q, 26)%nat; ((1 # 1)%Q, 27)%nat; ((1 # 1)%Q, 28)%nat; ((1 # 1)%Q, 29)%nat; ((1 # 1)%Q, 30)%nat; ((1 # 1)%Q, 31)%nat; ((1 # 1)%Q, 32)%nat; ((1 # 1)%Q, 33)%nat; ((1 # 1)%Q, 34)%nat; ((1 # 1)%Q, 35)%nat; ((1 # 1)%Q, 36)%nat; ((1 # 1)%Q, 37)%nat; ((1 # 1)%Q, 38)%nat; ((1 # 1)%Q, 39)%nat; ((1 # 1)%Q, 40)%nat; ((1 # 1)%Q, 41)%nat; ((1 # 1)%Q, 42)%nat; ((1 # 1)%Q, 43)%nat; ((1 # 1)%Q, 44)%nat; ((1 # 1)%Q, 45)%nat; ((1 # 1)%Q, 46)%nat; ((1 # 1)%Q, 47)%nat; ((1 # 1)%Q, 48)%nat; ((1 # 1)%Q, 49)%nat; ((1 # 1)%Q, 50)%nat; ((1 # 1)%Q, 51)%nat; ((1 # 1)%Q, 52)%nat; ((1 # 1)%Q, 53)%nat; ((1 # 1)%Q, 54)%nat; ((1 # 1)%Q, 55)%nat; ((1 # 1)%Q, 56)%nat; ((1 # 1)%Q, 57)%nat; ((1 # 1)%Q, 58)%nat; ((1 # 1)%Q, 59)%nat; ((1 # 1)%Q, 60)%nat; ((1 # 1)%Q, 61)%nat; ((1 # 1)%Q, 62)%nat; ((1 # 1)%Q, 63)%nat; ((1 # 1)%Q, 64)%nat; ((1 # 1)%Q, 65)%nat; ((1 # 1)%Q, 66)%nat; ((1 # 1)%Q, 67)%nat; ((1 # 1)%Q, 68)%nat; ((1 # 1)%Q, 69)%nat; ((1 # 1)%Q, 70)%nat; ((1 # 1)%Q, 71)%nat; ((1 # 1)%Q, 72)%nat; ((1 # 1)%Q, 73)%nat; ((1 # 1)%Q, 74)%nat; ((1 # 1)%Q, 75)%nat] (* mM18 *);
   [((1 # 1)%Q, 0)%nat; ((1 # 1)%Q, 1)%nat; ((2 # 1)%Q, 2)%nat; ((2 # 1)%Q, 3)%nat; ((1 # 1)%Q, 4)%nat; ((3 # 2)%Q, 5)%nat; ((2 # 1)%Q, 6)%nat; ((6 # 1)%Q, 7)%nat; ((1 # 1)%Q, 8)%nat; ((1 # 1)%Q, 9)%nat; ((1 # 1)%Q, 10)%nat; ((1 # 1)%Q, 11)%nat; ((1 # 1)%Q, 12)%nat; ((3 # 1)%Q, 13)%nat; ((1 # 1)%Q, 14)%nat; ((1 # 1)%Q, 15)%nat; ((1 # 1)%Q, 16)%nat; ((1 # 1)%Q, 17)%nat; ((1 # 1)%Q, 18)%nat; ((1 # 1)%Q, 19)%nat; ((1 # 1)%Q, 20)%nat; ((1 # 1)%Q, 21)%nat; ((1 # 1)%Q, 22)%nat; ((1 # 1)%Q, 23)%nat; ((1 # 1)%Q, 24)%nat; ((1 # 1)%Q, 25)%nat; ((1 # 1)%Q, 26)%nat; ((1 # 1)%Q, 27)%nat; ((1 # 1)%Q, 28)%nat; ((1 # 1)%Q, 29)%nat; ((1 # 1)%Q, 30)%nat; ((1 # 1)%Q, 31)%nat; ((1 # 1)%Q, 32)%nat; ((1 # 1)%Q, 33)%nat; ((1 # 1)%Q, 34)%nat; ((1 # 1)%Q, 35)%nat; ((1 # 1)%Q, 36)%nat; ((1 # 1)%Q, 37)%nat; ((1 # 1)%Q, 38)%nat; ((1 # 1)%Q, 39)%nat; ((1 # 1)%Q, 40)%nat; ((1 # 1)%Q, 41)%nat; ((1 # 1)%Q, 42)%nat; ((1 # 1)%Q, 43)%nat; ((1 # 1)%Q, 44)%nat; ((1 # 1)%Q, 45)%nat; ((1 # 1)%Q, 46)%nat; ((1 # 1)%Q, 47)%nat; ((1 # 1)%Q, 48)%nat; ((1 # 1)%Q, 49)%nat; ((1 # 1)%Q, 50)%nat; ((1 # 1)%Q, 51)%nat; ((1 # 1)%Q, 52)%nat; ((1 # 1)%Q, 53)%nat; ((1 # 1)%Q, 54)%nat; ((1 # 1)%Q, 55)%nat; ((1 # 1)%Q, 56)%nat; ((1 # 1)%Q, 57)%nat; ((1 # 1)%Q, 58)%nat; ((1 # 1)%Q, 59)%nat; ((1 # 1)%Q, 60)%nat; ((1 # 1)%Q, 61)%nat; ((1 # 1)%Q, 62)%nat; ((1 # 1)%Q, 63)%nat; ((1 # 1)%Q, 64)%nat; ((1 # 1)%Q, 65)%nat; ((1 # 1)%Q, 66)%nat; ((1 # 1)%Q, 67)%nat; ((1 # 1)%Q, 68)%nat; ((1 # 1)%Q, 69)%nat; ((1 # 1)%Q, 70)%nat; ((1 # 1)%Q, 71)%nat; ((1 # 1)%Q, 72)%nat; ((1 # 1)%Q, 73)%nat; ((3152519739159347 # 4503599627370496)%Q, 74)%nat; ((3152519739159347 # 4503599627370496)%Q, 75)%nat] (* mM19 *);
   [((1 # 1)%Q, 0)%nat; ((1 # 1)%Q, 1)%nat; ((1 # 1)%Q, 2)%nat; ((1 # 1)%Q, 3)%nat; ((1 # 1)%Q, 4)%nat; ((1 # 1)%Q, 5)%nat; ((1 # 1)%Q, 6)%nat; ((1 # 1)%Q, 7)%nat; ((1 # 1)%Q, 8)%nat; ((1 # 1)%Q, 9)%nat; ((1 # 1)%Q, 10)%nat; ((1 # 1)%Q, 11)%nat; ((1 # 1)%Q, 12)%nat; ((1 # 1)%Q, 13)%nat; ((1 # 1)%Q, 14)%nat; ((1 # 1)%Q, 15)%nat; ((1 # 1)%Q, 16)%nat; ((1 # 1)%Q, 17)%nat; ((1 # 1)%Q, 18)%nat; ((1 # 1)%Q, 19)%nat; ((1 # 1)%Q, 20)%nat; ((1 # 1)%Q, 21)%nat; ((1 # 1)%Q, 22)%nat; ((1 # 1)%Q, 23)%nat; ((1 # 1)%Q, 24)%nat; ((1 # 1)%Q, 25)%nat; ((1 # 1)%Q, 26)%nat; ((1 # 1)%Q, 27)%nat; ((1 # 1)%Q, 28)%nat; ((1 # 1)%Q, 29)%nat; ((1 # 1)%Q, 30)%nat; ((1 # 1)%Q, 31)%nat; ((1 # 1)%Q, 32)%nat; ((1 # 1)%Q, 33)%nat; ((1 # 1)%Q, 34)%nat; ((1 # 1)%Q, 35)%nat; ((1 # 1)%Q, 36)%nat; ((1 # 1)%Q, 37)%nat; ((1 # 1)%Q, 38)%nat; ((1 # 1)%Q, 39)%nat; ((1 # 1)%Q, 40)%nat; ((1 # 1)%Q, 41)%nat; ((1 # 1)%Q, 42)%nat; ((1 # 1)%Q, 43)%nat; ((1 # 1)%Q, 44)%nat; ((1 # 1)%Q, 45)%nat; ((1 # 1)%Q, 46)%nat; ((1 # 1)%Q, 47)%nat; ((1 # 1)%Q, 48)%nat; ((1 # 1)%Q, 49)%nat; ((1 # 1)%Q, 50)%nat; ((1 # 1)%Q, 51)%nat; ((1 # 1)%Q, 52)%nat; ((1 # 1)%Q, 53)%nat; ((1 # 1)%Q, 54)%nat; ((1 # 1)%Q, 55)%nat; ((1 # 1)%Q, 56)%nat; ((1 # 1)%Q, 57)%nat; ((1 # 1)%Q, 58)%nat; ((1 # 1)%Q, 59)%nat; ((1 # 1)%Q, 60)%nat; ((1 # 1)%Q, 61)%nat; ((1 # 1)%Q, 62)%nat; ((1 # 1)%Q, 63)%nat; ((1 # 1)%Q, 64)%nat; ((1 # 1)%Q, 65)%nat; ((1 # 1)%Q, 66)%nat; ((1 # 1)%Q, 67)%nat; ((1 # 1)%Q, 68)%nat; ((1 # 1)%Q, 69)%nat; ((1 # 1)%Q, 70)%nat; ((1 # 1)%Q, 71)%nat; ((1 # 1)%Q, 72)%nat; ((1 # 1)%Q, 73)%nat; ((1 # 1)%Q, 74)%nat; ((1 # 1)%Q, 75)%nat] (* mM20 *);
   [((1 # 1)%Q, 0)%nat; ((1 # 1)%Q, 1)%nat; ((2 # 1)%Q, 2)%nat; ((2 # 1)%Q, 3)%nat; ((1 # 1)%Q, 4)%nat; ((3 # 2)%Q, 5)%nat; ((2 # 1)%Q, 6)%nat; ((6 # 1)%Q, 7)%nat; ((1 # 1)%Q, 8)%nat; ((1 # 1)%Q, 9)%nat; ((1 # 1)%Q, 10)%nat; ((1 # 1)%Q, 11)%nat; ((1 # 1)%Q, 12)%nat; ((3 # 1)%Q, 13)%nat; ((1 # 1)%Q, 14)%nat; ((1 # 1)%Q, 15)%nat; ((1 # 1)%Q, 16)%nat; ((1 # 1)%Q, 17)%nat; ((1 # 1)%Q, 18)%nat; ((1 # 1)%Q, 19)%nat; ((1 # 1)%Q, 20)%nat; ((1 # 1)%Q, 21)%nat; ((1 # 1)%Q, 22)%nat; ((1 # 1)%Q, 23)%nat; ((1 # 1)%Q, 24)%nat; ((1 # 1)%Q, 25)%nat; ((1 # 1)%Q, 26)%nat; ((1 # 1)%Q, 27)%nat; ((1 # 1)%Q, 28)%nat; ((1 # 1)%Q, 29)%nat; ((1 # 1)%Q, 30)%nat; ((1 # 1)%Q, 31)%nat; ((1 # 1)%Q, 32)%nat; ((1 # 1)%Q, 33)%nat; ((1 # 1)%Q, 34)%nat; ((1 # 1)%Q, 35)%nat; ((1 # 1)%Q, 36)%nat; ((1 # 1)%Q, 37)%nat; ((1 # 1)%Q, 38)%nat; ((1 # 1)%Q, 39)%nat; ((1 # 1)%Q, 40)%nat; ((1 # 1)%Q, 41)%nat; ((1 # 1)%Q, 42)%nat; ((1 # 1)%Q, 43)%nat; ((1 # 1)%Q, 44)%nat; ((1 # 1)%Q, 45)%nat; ((1 # 1)%Q, 46)%nat; ((1 # 1)%Q, 47)%nat; ((1 # 1)%Q, 48)%nat; ((1 # 1)%Q, 49)%nat; ((1 # 1)%Q, 50)%nat; ((1 # 1)%Q, 51)%nat; ((1 # 1)%Q, 52)%nat; ((1 # 1)%Q, 53)%nat; ((1 # 1)%Q, 54)%nat; ((1 # 1)%Q, 55)%nat; ((1 # 1)%Q, 56)%nat; ((1 # 1)%Q, 57)%nat; ((1 # 1)%Q, 58)%nat; ((1 # 1)%Q, 59)%nat; ((1 # 1)%Q, 60)%nat; ((1 # 1)%Q, 61)%nat; ((1 # 1)%Q, 62)%nat; ((1 # 1)%Q, 63)%nat; ((1 # 1)%Q, 64)%nat; ((1 # 1)%Q, 65)%nat; ((1 # 1)%Q, 66)%nat; ((1 # 1)%Q, 67)%nat; ((1 # 1)%Q, 68)%nat; ((1 # 1)%Q, 69)%nat; ((1 # 1)%Q, 70)%nat; ((1 # 1)%Q, 71)%nat; ((1 # 1)%Q, 72)%nat; ((1 # 1)%Q, 73)%nat; ((3152519739159347 # 4503599627370496)%Q, 74)%nat; ((3152519739159347 # 4503599627370496)%Q, 75)%nat] (* mM21 *);
   [((1 # 1)%Q, 0)%nat; ((1 # 1)%Q, 1)%nat; ((1 # 1)%Q, 2)%nat; ((1 # 1)%Q, 3)%nat; ((1 # 1)%Q, 4)%nat; ((2 # 1)%Q, 5)%nat; ((3 # 1)%Q, 6)%nat; ((5 # 1)%Q, 7)%nat; ((1 # 1)%Q, 8)%nat; ((1 # 1)%Q, 9)%nat; ((1 # 1)%Q, 10)%nat; ((1 # 1)%Q, 11)%nat; ((1 # 1)%Q, 12)%nat; ((1 # 1)%Q, 13)%nat; ((1 # 1)%Q, 14)%nat; ((1 # 1)%Q, 15)%nat; ((1 # 1)%Q, 16)%nat; ((1 # 1)%Q, 17)%nat; ((1 # 1)%Q, 18)%nat; ((1 # 1)%Q, 19)%nat; ((1 # 1)%Q, 20)%nat; ((1 # 1)%Q, 21)%nat; ((1 # 1)%Q, 22)%nat; ((1 # 1)%Q, 23)%nat; ((1 # 1)%Q, 24)%nat; ((1 # 1)%Q, 25)%nat; ((1 # 1)%Q, 26)%nat; ((1 # 1)%Q, 27)%nat; ((1 # 1)%Q, 28)%nat; ((1 # 1)%Q, 29)%nat; ((1 # 1)%Q, 30)%nat; ((1 # 1)%Q, 31)%nat; ((1 # 1)%Q, 32)%nat; ((1 # 1)%Q, 33)%nat; ((1 # 1)%Q, 34)%nat; ((1 # 1)%Q, 35)%nat; ((1 # 1)%Q, 36)%nat; ((1 # 1)%Q, 37)%nat; ((1 # 1)%Q, 38)%nat; ((1 # 1)%Q, 39)%nat; ((1 # 1)%Q, 40)%nat; ((1 # 1)%Q, 41)%nat; ((1 # 1)%Q, 42)%nat; ((1 # 1)%Q, 43)%nat; ((1 # 1)%Q, 44)%nat; ((1 # 1)%Q, 45)%nat; ((1 # 1)%Q, 46)%nat; ((1 # 1)%Q, 47)%nat; ((1 # 1)%Q, 48)%nat; ((1 # 1)%Q, 49)%nat; ((1 # 1)%Q, 50)%nat; ((1 # 1)%Q, 51)%nat; ((1 # 1)%Q, 52)%nat; ((1 # 1)%Q, 53)%nat; ((1 # 1)%Q, 54)%nat; ((1 # 1)%Q, 55)%nat; ((1 # 1)%Q, 56)%nat; ((1 # 1)%Q, 57)%nat; ((1 # 1)%Q, 58)%nat; ((1 # 1)%Q, 59)%nat; ((1 # 1)%Q, 60)%nat; ((1 # 1)%Q, 61)%nat; ((1 # 1)%Q, 62)%nat; ((1 # 1)%Q, 63)%nat; ((1 # 1)%Q, 64)%nat; ((1 # 1)%Q, 65)%nat; ((1 # 1)%Q, 66)%nat; ((1 # 1)%Q, 67)%nat; ((1 # 1)%Q, 68)%nat; ((1 # 1)%Q, 69)%nat; ((1 # 1)%Q, 70)%nat; ((1 # 1)%Q, 71)%nat; ((1 # 1)%Q, 72)%nat; ((1 # 1)%Q, 73)%nat; ((1 # 1)%Q, 74)%nat; ((1 # 1)%Q, 75)%nat] (* mM22 *);
   [((1 # 1)%Q, 0)%nat; ((1 # 1)%Q, 1)%nat; ((2 # 1)%Q, 2)%nat; ((2 # 1)%Q, 3)%nat; ((1 # 1)%Q, 4)%nat; ((3 # 2)%Q, 5)%nat; ((2 # 1)%Q, 6)%nat; ((6 # 1)%Q, 7)%nat; ((1 # 1)%Q, 8)%nat; ((1 # 1)%Q, 9)%nat; ((1 # 1)%Q, 10)%nat; ((1 # 1)%Q, 11)%nat; ((1 # 1)%Q, 12)%nat; ((3 # 1)%Q, 13)%nat; ((1 # 1)%Q, 14)%nat; ((1 # 1)%Q, 15)%nat; ((1 # 1)%Q, 16)%nat; ((1 # 1)%Q, 17)%nat; ((1 # 1)%Q, 18)%nat; ((1 # 1)%Q, 19)%nat; ((1 # 1)%Q, 20)%nat; ((1 # 1)%Q, 21)%nat; ((1 # 1)%Q, 22)%nat; ((1 # 1)%Q, 23)%nat; ((1 # 1)%Q, 24)%nat; ((1 # 1)%Q, 25)%nat; ((1 # 1)%Q, 26)%nat; ((1 # 1)%Q, 27)%nat; ((1 # 1)%Q, 28)%nat; ((1 # 1)%Q, 29)%nat; ((1 # 1)%Q, 30)%nat; ((1 # 1)%Q, 31)%nat; ((1 # 1)%Q, 32)%nat; ((1 # 1)%Q, 33)%nat; ((1 # 1)%Q, 34)%nat; ((1 # 1)%Q, 35)%nat; ((1 # 1)%Q, 36)%nat; ((1 # 1)%Q, 37)%nat; ((1 # 1)%Q, 38)%nat; ((1 # 1)%Q, 39)%nat; ((1 # 1)%Q, 40)%nat; ((1 # 1)%Q, 41)%nat; ((1 # 1)%Q, 42)%nat; ((1 # 1)%Q, 43)%nat; ((1 # 1)%Q, 44)%nat; ((1 # 1)%Q, 45)%nat; ((1 # 1)%Q, 46)%nat; ((1 # 1)%Q, 47)%nat; ((1 # 1)%Q, 48)%nat; ((1 # 1)%Q, 49)%nat; ((1 # 1)%Q, 50)%nat; ((1 # 1)%Q, 51)%nat; ((1 # 1)%Q, 52)%nat; ((1 # 1)%Q, 53)%nat; ((1 # 1)%Q, 54)%nat; ((1 # 1)%Q, 55)%nat; ((1 # 1)%Q, 56)%nat; ((1 # 1)%Q, 57)%nat; ((1 # 1)%Q, 58)%nat; ((1 # 1)%Q, 59)%nat; ((1 # 1)%Q, 60)%nat; ((1 # 1)%Q, 61)%nat; ((1 # 1)%Q, 62)%nat; ((1 # 1)%Q, 63)%nat; ((1 # 1)%Q, 64)%nat; ((1 # 1)%Q, 65)%nat; ((1 # 1)%Q, 66)%nat; ((1 # 1)%Q, 67)%nat; ((1 # 1)%Q, 68)%nat; ((1 # 1)%Q, 69)%nat; ((1 # 1)%Q, 70)%nat; ((1 # 1)%Q, 71)%nat; ((1 # 1)%Q, 72)%nat; ((1 # 1)%Q, 73)%nat; ((3152519739159347 # 4503599627370496)%Q, 74)%nat; ((3152519739159347 # 4503599627370496)%Q, 75)%nat] (* mM23 *);
   [((1 # 1)%Q, 0)%nat; ((1 # 1)%Q, 1)%nat; ((2 # 1)%Q, 2)%nat; ((2 # 1)%Q, 3)%nat; ((1 # 1)%Q, 4)%nat; ((3 # 2)%Q, 5)%nat; ((2 # 1)%Q, 6)%nat; ((6 # 1)%Q, 7)%nat; ((1 # 1)%Q, 8)%nat; ((1 # 1)%Q, 9)%nat; ((1 # 1)%Q, 10)%nat; ((1 # 1)%Q, 11)%nat; ((1 # 1)%Q, 12)%nat; ((3 # 1)%Q, 13)%nat; ((1 # 1)%Q, 14)%nat; ((1 # 1)%Q, 15)%nat; ((1 # 1)%Q, 16)%nat; ((1 # 1)%Q, 17)%nat; ((1 # 1)%Q, 18)%nat; ((1 # 1)%Q, 19)%nat; ((1 # 1)%Q, 20)%nat; ((1 # 1)%Q, 21)%nat; ((1 # 1)%Q, 22)%nat; ((1 # 1)%Q, 23)%nat; ((1 # 1)%Q, 24)%nat; ((1 # 1)%Q, 25)%nat; ((1 # 1)%Q, 26)%nat; ((1 # 1)%Q, 27)%nat; ((1 # 1)%Q, 28)%nat; ((1 # 1)%Q, 29)%nat; ((1 # 1)%Q, 30)%nat; ((1 # 1)%Q, 31)%nat; ((1 # 1)%Q, 32)%nat; ((1 # 1)%Q, 33)%nat; ((1 # 1)%Q, 34)%nat; ((1 # 1)%Q, 35)%nat; ((1 # 1)%Q, 36)%nat; ((1 # 1)%Q, 37)%nat; ((1 # 1)%Q, 38)%nat; ((1 # 1)%Q, 39)%nat; ((1 # 1)%Q, 40)%nat; ((1 # 1)%Q, 41)%nat; ((1 # 1)%Q, 42)%nat; ((1 # 1)%Q, 43)%nat; ((1 # 1)%Q, 44)%nat; ((1 # 1)%Q, 45)%nat; ((1 # 1)%Q, 46)%nat; ((1 # 1)%Q, 47)%nat; ((1 # 1)%Q, 48)%nat; ((1 # 1)%Q, 49)%nat; ((1 # 1)%Q, 50)%nat; ((1 # 1)%Q, 51)%nat; ((1 # 1)%Q, 52)%nat; ((1 # 1)%Q, 53)%nat; ((1 # 1)%Q, 54)%nat; ((1 # 1)%Q, 55)%nat; ((1 # 1)%Q, 56)%nat; ((1 # 1)%Q, 57)%nat; ((1 # 1)%Q, 58)%nat; ((1 # 1)%Q, 59)%nat; ((1 # 1)%Q, 60)%nat; ((1 # 1)%Q, 61)%nat; ((1 # 1)%Q, 62)%nat; ((1 # 1)%Q, 63)%nat; ((1 # 1)%Q, 64)%nat; ((1 # 1)%Q, 65)%nat; ((1 # 1)%Q, 66)%nat; ((1 # 1)%Q, 67)%nat; ((1 # 1)%Q, 68)%nat; ((1 # 1)%Q, 69)%nat; ((1 # 1)%Q, 70)%nat; ((1 # 1)%Q, 71)%nat; ((1 # 1)%Q, 72)%nat; ((1 # 1)%Q, 73)%nat; ((1 # 1)%Q, 74)%nat; ((3152519739159347 # 4503599627370496)%Q, 75)%nat] (* mM24 *);
   [((1 # 1)%Q, 0)%nat; ((1 # 1)%Q, 1)%nat; ((1 # 1)%Q, 2)%nat; ((1 # 1)%Q, 3)%nat; ((1 # 1)%Q, 4)%nat; ((1 # 1)%Q, 5)%nat; ((1 # 1)%Q, 6)%nat; ((1 # 1)%Q, 7)%nat; ((1 # 1)%Q, 8)%nat; ((1 # 1)%Q, 9)%nat; ((1 # 1)%Q, 10)%nat; ((1 # 1)%Q, 11)%nat; ((1 # 1)%Q, 12)%nat; ((1 # 1)%Q, 13)%nat; ((1 # 1)%Q, 14)%nat; ((1 # 1)%Q, 15)%nat; ((1 # 1)%Q, 16)%nat; ((1 # 1)%Q, 17)%nat; ((1 # 1)%Q, 18)%nat; ((1 # 1)%Q, 19)%nat; ((1 # 1)%Q, 20)%nat; ((1 # 1)%Q, 21)%nat; ((1 # 1)%Q, 22)%nat; ((1 # 1)%Q, 23)%nat; ((1 # 1)%Q, 24)%nat; ((1 # 1)%Q, 25)%nat; ((1 # 1)%Q, 26)%nat; ((1 # 1)%Q, 27)%nat; ((1 # 1)%Q, 28)%nat; ((1 # 1)%Q, 29)%nat; ((1 # 1)%Q, 30)%nat; ((1 # 1)%Q, 31)%nat; ((1 # 1)%Q, 32)%nat; ((1 # 1)%Q, 33)%nat; ((1 # 1)%Q, 34)%nat; ((1 # 1)%Q, 35)%nat; ((1 # 1)%Q, 36)%nat; ((1 # 1)%Q, 37)%nat; ((1 # 1)%Q, 38)%nat; ((1 # 1)%Q, 39)%nat; ((1 # 1)%Q, 40)%nat; ((1 # 1)%Q, 41)%nat; ((1 # 1)%Q, 42)%nat; ((1 # 1)%Q, 43)%nat; ((1 # 1)%Q, 44)%nat; ((1 # 1)%Q, 45)%nat; ((1 # 1)%Q, 46)%nat; ((1 # 1)%Q, 47)%nat; ((1 # 1)%Q, 48)%nat; ((1 # 1)%Q, 49)%nat; ((1 # 1)%Q, 50)%nat; ((1 # 1)%Q, 51)%nat; ((1 # 1)%Q, 52)%nat; ((1 # 1)%Q, 53)%nat; ((1 # 1)%Q, 54)%nat; ((1 # 1)%Q, 55)%nat; ((1 # 1)%Q, 56)%nat; ((1 # 1)%Q, 57)%nat; ((1 # 1)%Q, 58)%nat; ((1 # 1)%Q, 59)%nat; ((1 # 1)%Q, 60)%nat; ((1 # 1)%Q, 61)%nat; ((1 # 1)%Q, 62)%nat; ((1 # 1)%Q, 63)%nat; ((1 # 1)%Q, 64)%nat; ((1 # 1)%Q, 65)%nat; ((1 # 1)%Q, 66)%nat; ((1 # 1)%Q, 67)%nat; ((1 # 1)%Q, 68)%nat; ((1 # 1)%Q, 69)%nat; ((1 # 1)%Q, 70)%nat; ((1 # 1)%Q, 71)%nat; ((1 # 1)%Q, 72)%nat; ((1 # 1)%Q, 73)%nat; ((1 # 1)%Q, 74)%nat; ((1 # 1)%Q, 75)%nat] (* mM25 *);
   [((1 # 1)%Q, 0)%nat; ((1 # 1)%Q, 1)%nat; ((1 # 1)%Q, 2)%nat; ((1 # 1)%Q, 3)%nat; ((1 # 1)%Q, 4)%nat; ((1 # 1)%Q, 5)%nat; ((1 # 1)%Q, 6)%nat; ((1 # 1)%Q, 7)%nat; ((1 # 1)%Q, 8)%nat; ((1 # 1)%Q, 9)%nat; ((1 # 1)%Q, 10)%nat; ((1 # 1)%Q, 11)%nat; ((1 # 1)%Q, 12)%nat; ((1 # 1)%Q, 13)%nat; ((1 # 1)%Q, 14)%nat; ((1 # 1)%Q, 15)%nat; ((1 # 1)%Q, 16)%nat; ((1 # 1)%Q, 17)%nat; ((1 # 1)%Q, 18)%nat; ((1 # 1)%Q, 19)%nat; ((1 # 1)%Q, 20)%nat; ((1 # 1)%Q, 21)%nat; ((1 # 1)%Q, 22)%nat; ((1 # 1)%Q, 23)%nat; ((1 # 1)%Q, 24)%nat; ((1 # 1)%Q, 25)%nat; ((1 # 1)%Q, 26)%nat; ((1 # 1)%Q, 27)%nat; ((1 # 1)%Q, 28)%nat; ((1 # 1)%Q, 29)%nat; ((1 # 1)%Q, 30)%nat; ((1 # 1)%Q, 31)%nat; ((1 # 1)%Q, 32)%nat; ((1 # 1)%Q, 33)%nat; ((1 # 1)%Q, 34)%nat; ((1 # 1)%Q, 35)%nat; ((1 # 1)%Q, 36)%nat; ((1 # 1)%Q, 37)%nat; ((1 # 1)%Q, 38)%nat; ((1 # 1)%Q, 39)%nat; ((1 # 1)%Q, 40)%nat; ((1 # 1)%Q, 41)%nat; ((1 # 1)%Q, 42)%nat; ((1 # 1)%Q, 43)%nat; ((1 # 1)%Q, 44)%nat; ((1 # 1)%Q, 45)%nat; ((1 # 1)%Q, 46)%nat; ((1 # 1)%Q, 47)%nat; ((1 # 1)%Q, 48)%nat; ((1 # 1)%Q, 49)%nat; ((1 # 1)%Q, 50)%nat; ((1 # 1)%Q, 51)%nat; ((1 # 1)%Q, 52)%nat; ((1 # 1)%Q, 53)%nat; ((1 # 1)%Q, 54)%nat; ((1 # 1)%Q, 55)%nat; ((1 # 1)%Q, 56)%nat; ((1 # 1)%Q, 57)%nat; ((1 # 1)%Q, 58)%nat; ((1 # 1)%Q, 59)%nat; ((1 # 1)%Q, 60)%nat; ((1 # 1)%Q, 61)%nat; ((1 # 1)%Q, 62)%nat; ((1 # 1)%Q, 63)%nat; ((1 # 1)%Q, 64)%nat; ((1 # 1)%Q, 65)%nat; ((1 # 1)%Q, 66)%nat; ((1 # 1)%Q, 67)%nat; ((1 # 1)%Q, 68)%nat; ((1 # 1)%Q, 69)%nat; ((1 # 1)%Q, 70)%nat; ((1 # 1)%Q, 71)%nat; ((1 # 1)%Q, 72)%nat; ((1 # 1)%Q, 73)%nat; ((1 # 1)%Q, 74)%nat; ((1 # 1)%Q, 75)%nat] (* mM26 *);
   [((1 # 1)%Q, 0)%nat; ((1 # 1)%Q, 1)%nat; ((1 # 1)%Q, 2)%nat; ((1 # 1)%Q, 3)%nat; ((1 # 1)%Q, 4)%nat; ((1 # 1)%Q, 5)%nat; ((1 # 1)%Q, 6)%nat; ((1 # 1)%Q, 7)%nat; ((1 # 1)%Q, 8)%nat; ((1 # 1)%Q, 9)%nat; ((1 # 1)%Q, 10)%nat; ((1 # 1)%Q, 11)%nat; ((1 # 1)%Q, 12)%nat; ((1 # 1)%Q, 13)%nat; ((1 # 1)%Q, 14)%nat; ((1 # 1)%Q, 15)%nat; ((1 # 1)%Q, 16)%nat; ((1 # 1)%Q, 17)%nat; ((1 # 1)%Q, 18)%nat; ((1 # 1)%Q, 19)%nat; ((1 # 1)%Q, 20)%nat; ((1 # 1)%Q, 21)%nat; ((1 # 1)%Q, 22)%nat; ((1 # 1)%Q, 23)%nat; ((1 # 1)%Q, 24)%nat; ((1 # 1)%Q, 25)%nat; ((1 # 1)%Q, 26)%nat; ((1 # 1)%Q, 27)%nat; ((1 # 1)%Q, 28)%nat; ((1 # 1)%Q, 29)%nat; ((1 # 1)%Q, 30)%nat; ((1 # 1)%Q, 31)%nat; ((1 # 1)%Q, 32)%nat; ((1 # 1)%Q, 33)%nat; ((1 # 1)%Q, 34)%nat; ((1 # 1)%Q, 35)%nat; ((1 # 1)%Q, 36)%nat; ((1 # 1)%Q, 37)%nat; ((1 # 1)%Q, 38)%nat; ((1 # 1)%Q, 39)%nat; ((1 # 1)%Q, 40)%nat; ((1 # 1)%Q, 41)%nat; ((1 # 1)%Q, 42)%nat; ((1 # 1)%Q, 43)%nat; ((1 # 1)%Q, 44)%nat; ((1 # 1)%Q, 45)%nat; ((1 # 1)%Q, 46)%nat; ((1 # 1)%Q, 47)%nat; ((1 # 1)%Q, 48)%nat; ((1 # 1)%Q, 49)%nat; ((1 # 1)%Q, 50)%nat; ((1 # 1)%Q, 51)%nat; ((1 # 1)%Q, 52)%nat; ((1 # 1)%Q, 53)%nat; ((1 # 1)%Q, 54)%nat; ((1 # 1)%Q, 55)%nat; ((1 # 1)%Q, 56)%nat; ((1 # 1)%Q, 57)%nat; ((1 # 1)%Q, 58)%nat; ((1 # 1)%Q, 59)%nat; ((1 # 1)%Q, 60)%nat; ((1 # 1)%Q, 61)%nat; ((1 # 1)%Q, 62)%nat; ((1 # 1)%Q, 63)%nat; ((1 # 1)%Q, 64)%nat; ((1 # 1)%Q, 65)%nat; ((1 # 1)%Q, 66)%nat; ((1 # 1)%Q, 67)%nat; ((1 # 1)%Q, 68)%nat; ((1 # 1)%Q, 69)%nat; ((1 # 1)%Q, 70)%nat; ((1 # 1)%Q, 71)%nat; ((1 # 1)%Q, 72)%nat; ((1 # 1)%Q, 73)%nat; ((1 # 1)%Q, 74)%nat; ((1 # 1)%Q, 75)%nat] (* mM27 *);
   [((1 # 1)%Q, 0)%nat; ((1 # 1)%Q, 1)%nat; ((1 # 1)%Q, 2)%nat; ((1 # 1)%Q, 3)%nat; ((1 # 1)%Q, 4)%nat; ((1 # 1)%Q, 5)%nat; ((1 # 1)%Q, 6)%nat; ((1 # 1)%Q, 7)%nat; ((1 # 1)%Q, 8)%nat; ((1 # 1)%Q, 9)%nat; ((1 # 1)%Q, 10)%nat; ((1 # 1)%Q, 11)%nat; ((1 # 1)%Q, 12)%nat; ((1 # 1)%Q, 13)%nat; ((1 # 1)%Q, 14)%nat; ((1 # 1)%Q, 15)%nat; ((1 # 1)%Q, 16)%nat; ((1 # 1)%Q, 17)%nat; ((1 # 1)%Q, 18)%nat; ((1 # 1)%Q, 19)%nat; ((1 # 1)%Q, 20)%nat; ((1 # 1)%Q, 21)%nat; ((1 # 1)%Q, 22)%nat; ((1 # 1)%Q, 23)%nat; ((1 # 1)%Q, 24)%nat; ((1 # 1)%Q, 25)%nat; ((1 # 1)%Q, 26)%nat; ((1 # 1)%Q, 27)%nat; ((1 # 1)%Q, 28)%nat; ((1 # 1)%Q, 29)%nat; ((1 # 1)%Q, 30)%nat; ((1 # 1)%Q, 31)%nat; ((1 # 1)%Q, 32)%nat; ((1 # 1)%Q, 33)%nat; ((1 # 1)%Q, 34)%nat; ((1 # 1)%Q, 35)%nat; ((1 # 1)%Q, 36)%nat; ((1 # 1)%Q, 37)%nat; ((1 # 1)%Q, 38)%nat; ((1 # 1)%Q, 39)%nat; ((1 # 1)%Q, 40)%nat; ((1 # 1)%Q, 41)%nat; ((1 # 1)%Q, 42)%nat; ((1 # 1)%Q, 43)%nat; ((1 # 1)%Q, 44)%nat; ((1 # 1)%Q, 45)%nat; ((1 # 1)%Q, 46)%nat; ((1 # 1)%Q, 47)%nat; ((1 # 1)%Q, 48)%nat; ((1 # 1)%Q, 49)%nat; ((1 # 1)%Q, 50)%nat; ((1 # 1)%Q, 51)%nat; ((1 # 1)%Q, 52)%nat; ((1 # 1)%Q, 53)%nat; ((1 # 1)%Q, 54)%nat; ((1 # 1)%Q, 55)%nat; ((1 # 1)%Q, 56)%nat; ((1 # 1)%Q, 57)%nat; ((1 # 1)%Q, 58)%nat; ((1 # 1)%Q, 59)%nat; ((1 # 1)%Q, 60)%nat; ((1 # 1)%Q, 61)%nat; ((1 # 1)%Q, 62)%nat; ((1 # 1)%Q, 63)%nat; ((1 # 1)%Q, 64)%nat; ((1 # 1)%Q, 65)%nat; ((1 # 1)%Q, 66)%nat; ((1 # 1)%Q, 67)%nat; ((1 # 1)%Q, 68)%nat; ((1 # 1)%Q, 69)%nat; ((1 # 1)%Q, 70)%nat; ((1 # 1)%Q, 71)%nat; ((1 # 1)%Q, 72)%nat; ((1 # 1)%Q, 73)%nat; ((1 # 1)%Q, 74)%nat; ((1 # 1)%Q, 75)%nat] (* mM28 *);
   [((1 # 1)%Q, 0)%nat; ((1 # 1)%Q, 1)%nat; ((1 # 1)%Q, 2)%nat; ((1 # 1)%Q, 3)%nat; ((1 # 1)%Q, 4)%nat; ((1 # 1)%Q, 5)%nat; ((1 # 1)%Q, 6)%nat; ((1 # 1)%Q, 7)%nat; ((1 # 1)%Q, 8)%nat; ((1 # 1)%Q, 9)%nat; ((1 # 1)%Q, 10)%nat; ((1 # 1)%Q, 11)%nat; ((1 # 1)%Q, 12)%nat; ((1 # 1)%Q, 13)%nat; ((1 # 1)%Q, 14)%nat; ((1 # 1)%Q, 15)%nat; ((1 # 1)%Q, 16)%nat; ((1 # 1)%Q, 17)%nat; ((1 # 1)%Q, 18)%nat; ((1 # 1)%Q, 19)%nat; ((1 # 1)%Q, 20)%nat; ((1 # 1)%Q, 21)%nat; ((1 # 1)%Q, 22)%nat; ((1 # 1)%Q, 23)%nat; ((1 # 1)%Q, 24)%nat; ((1 # 1)%Q, 25)%nat; ((1 # 1)%Q, 26)%nat; ((1 # 1)%Q, 27)%nat; ((1 # 1)%Q, 28)%nat; ((1 # 1)%Q, 29)%nat; ((1 # 1)%Q, 30)%nat; ((1 # 1)%Q, 31)%nat; ((1 # 1)%Q, 32)%nat; ((1 # 1)%Q, 33)%nat; ((1 # 1)%Q, 34)%nat; ((1 # 1)%Q, 35)%nat; ((1 # 1)%Q, 36)%nat; ((1 # 1)%Q, 37)%nat; ((1 # 1)%Q, 38)%nat; ((1 # 1)%Q, 39)%nat; ((1 # 1)%Q, 40)%nat; ((1 # 1)%Q, 41)%nat; ((1 # 1)%Q, 42)%nat; ((1 # 1)%Q, 43)%nat; ((1 # 1)%Q, 44)%nat; ((1 # 1)%Q, 45)%nat; ((1 # 1)%Q, 46)%nat; ((1 # 1)%Q, 47)%nat; ((1 # 1)%Q, 48)%nat; ((1 # 1)%Q, 49)%nat; ((1 # 1)%Q, 50)%nat; ((1 # 1)%Q, 51)%nat; ((1 # 1)%Q, 52)%nat; ((1 # 1)%Q, 53)%nat; ((1 # 1)%Q, 54)%nat; ((1 # 1)%Q, 55)%nat; ((1 # 1)%Q, 56)%nat; ((1 # 1)%Q, 57)%nat; ((1 # 1)%Q, 58)%nat; ((1 # 1)%Q, 59)%nat; ((1 # 1)%Q, 60)%nat; ((1 # 1)%Q, 61)%nat; ((1 # 1)%Q, 62)%nat; ((1 # 1)%Q, 63)%nat; ((1 # 1)%Q, 64)%nat; ((1 # 1)%Q, 65)%nat; ((1 # 1)%Q, 66)%nat; ((1 # 1)%Q, 67)%nat; ((1 # 1)%Q, 68)%nat; ((1 # 1)%Q, 69)%nat; ((1 # 1)%Q, 70)%nat; ((1 # 1)%Q, 71)%nat; ((1 # 1)%Q, 72)%nat; ((1 # 1)%Q, 73)%nat; ((1 # 1)%Q, 74)%nat; ((1 # 1)%Q, 75)%nat] (* mM29 *);
   [((1 # 1)%Q, 0)%nat; ((1 # 1)%Q, 1)%nat; ((1 # 1)%Q, 2)%nat; ((1 # 1)%Q, 3)%nat; ((1 # 1)%Q, 4)%nat; ((1 # 1)%Q, 5)%nat; ((1 # 1)%Q, 6)%nat; ((1 # 1)%Q, 7)%nat; ((1 # 1)%Q, 8)%nat; ((1 # 1)%Q, 9)%nat; ((1 # 1)%Q, 10)%nat; ((1 # 1)%Q, 11)%nat; ((1 # 1)%Q, 12)%nat; ((1 # 1)%Q, 13)%nat; ((1 # 1)%Q, 14)%nat; ((1 # 1)%Q, 15)%nat; ((1 # 1)%Q, 16)%nat; ((1 # 1)%Q, 17)%nat; ((1 # 1)%Q, 18)%nat; ((1 # 1)%Q, 19)%nat; ((1 # 1)%Q, 20)%nat; ((1 # 1)%Q, 21)%nat; ((1 # 1)%Q, 22)%nat; ((1 # 1)%Q, 23)%nat; ((1 # 1)%Q, 24)%nat; ((1 # 1)%Q, 25)%nat; ((1 # 1)%Q, 26)%nat; ((1 # 1)%Q, 27)%nat; ((1 # 1)%Q, 28)%nat; ((1 # 1)%Q, 29)%nat; ((1 # 1)%Q, 30)%nat; ((1 # 1)%Q, 31)%nat; ((1 # 1)%Q, 32)%nat; ((1 # 1)%Q, 33)%nat; ((1 # 1)%Q, 34)%nat; ((1 # 1)%Q, 35)%nat; ((1 # 1)%Q, 36)%nat; ((1 # 1)%Q, 37)%nat; ((1 # 1)%Q, 38)%nat; ((1 # 1)%Q, 39)%nat; ((1 # 1)%Q, 40)%nat; ((1 # 1)%Q, 41)%nat; ((1 # 1)%Q, 42)%nat; ((1 # 1)%Q, 43)%nat; ((1 # 1)%Q, 44)%nat; ((1 # 1)%Q, 45)%nat; ((1 # 1)%Q, 46)%nat; ((1 # 1)%Q, 47)%nat; ((1 # 1)%Q, 48)%nat; ((1 # 1)%Q, 49)%nat; ((1 # 1)%Q, 50)%nat; ((1 # 1)%Q, 51)%nat; ((1 # 1)%Q, 52)%nat; ((1 # 1)%Q, 53)%nat; ((1 # 1)%Q, 54)%nat; ((1 # 1)%Q, 55)%nat; ((1 # 1)%Q, 56)%nat; ((1 # 1)%Q, 57)%nat; ((1 # 1)%Q, 58)%nat; ((1 # 1)%Q, 59)%nat; ((1 # 1)%Q, 60)%nat; ((1 # 1)%Q, 61)%nat; ((1 # 1)%Q, 62)%nat; ((1 # 1)%Q, 63)%nat; ((1 # 1)%Q, 64)%nat; ((1 # 1)%Q, 65)%nat; ((1 # 1)%Q, 66)%nat; ((1 # 1)%Q, 67)%nat; ((1 # 1)%Q, 68)%nat; ((1 # 1)%Q, 69)%nat; ((1 # 1)%Q, 70)%nat; ((1 # 1)%Q, 71)%nat; ((1 # 1)%Q, 72)%nat; ((1 # 1)%Q, 73)%nat; ((1 # 1)%Q, 74)%nat; ((1 # 1)%Q, 75)%nat] (* mM30 *);
   [((1 # 1)%Q, 0)%nat; ((1 # 1)%Q, 1)%nat; ((2 # 1)%Q, 2)%nat; ((2 # 1)%Q, 3)%nat; ((1 # 1)%Q, 4)%nat; ((3 # 2)%Q, 5)%nat; ((2 # 1)%Q, 6)%nat; ((6 # 1)%Q, 7)%nat; ((1 # 1)%Q, 8)%nat; ((1 # 1)%Q, 9)%nat; ((1 # 1)%Q, 10)%nat; ((1 # 1)%Q, 11)%nat; ((1 # 1)%Q, 12)%nat; ((3 # 1)%Q, 13)%nat; ((1 # 1)%Q, 14)%nat; ((1 # 1)%Q, 15)%nat; ((1 # 1)%Q, 16)%nat; ((1 # 1)%Q, 17)%nat; ((1 # 1)%Q, 18)%nat; ((1 # 1)%Q, 19)%nat; ((1 # 1)%Q, 20)%nat; ((1 # 1)%Q, 21)%nat; ((1 # 1)%Q, 22)%nat; ((1 # 1)%Q, 23)%nat; ((1 # 1)%Q, 24)%nat; ((1 # 1)%Q, 25)%nat; ((1 # 1)%Q, 26)%nat; ((1 # 1)%Q, 27)%nat; ((1 # 1)%Q, 28)%nat; ((1 # 1)%Q, 29)%nat; ((1 # 1)%Q, 30)%nat; ((1 # 1)%Q, 31)%nat; ((1 # 1)%Q, 32)%nat; ((1 # 1)%Q, 33)%nat; ((1 # 1)%Q, 34)%nat; ((1 # 1)%Q, 35)%nat; ((1 # 1)%Q, 36)%nat; ((1 # 1)%Q, 37)%nat; ((1 # 1)%Q, 38)%nat; ((1 # 1)%Q, 39)%nat; ((1 # 1)%Q, 40)%nat; ((1 # 1)%Q, 41)%nat; ((1 # 1)%Q, 42)%nat; ((1 # 1)%Q, 43)%nat; ((1 # 1)%Q, 44)%nat; ((1 # 1)%Q, 45)%nat; ((1 # 1)%Q, 46)%nat; ((1 # 1)%Q, 47)%nat; ((1 # 1)%Q, 48)%nat; ((1 # 1)%Q, 49)%nat; ((1 # 1)%Q, 50)%nat; ((1 # 1)%Q, 51)%nat; ((1 # 1)%Q, 52)%nat; ((1 # 1)%Q, 53)%nat; ((1 # 1)%Q, 54)%nat; ((1 # 1)%Q, 55)%nat; ((1 # 1)%Q, 56)%nat; ((1 # 1)%Q, 57)%nat; ((1 # 1)%Q, 58)%nat; ((1 # 1)%Q, 59)%nat; ((1 # 1)%Q, 60)%nat; ((1 # 1)%Q, 61)%nat; ((1 # 1)%Q, 62)%nat; ((1 # 1)%Q, 63)%nat; ((1 # 1)%Q, 64)%nat; ((1 # 1)%Q, 65)%nat; ((1 # 1)%Q, 66)%nat; ((1 # 1)%Q, 67)%nat; ((1 # 1)%Q, 68)%nat; ((1 # 1)%Q, 69)%nat; ((1 # 1)%Q, 70)%nat; ((1 # 1)%Q, 71)%nat; ((1 # 1)%Q, 72)%nat; ((1 # 1)%Q, 73)%nat; ((3152519739159347 # 4503599627370496)%Q, 74)%nat; ((3152519739159347 # 4503599627370496)%Q, 75)%nat] (* mM31 *);
   [((1 # 1)%Q, 0)%nat; ((1 # 1)%Q, 1)%nat; ((1 # 1)%Q, 2)%nat; ((1 # 1)%Q, 3)%nat; ((1 # 1)%Q, 4)%nat; ((1 # 1)%Q, 5)%nat; ((1 # 1)%Q, 6)%nat; ((1 # 1)%Q, 7)%nat; ((1 # 1)%Q, 8)%nat; ((1 # 1)%Q, 9)%nat; ((1 # 1)%Q, 10)%nat; ((1 # 1)%Q, 11)%nat; ((1 # 1)%Q, 12)%nat; ((1 # 1)%Q, 13)%nat; ((1 # 1)%Q, 14)%nat; ((1 # 1)%Q, 15)%nat; ((1 # 1)%Q, 16)%nat; ((1 # 1)%Q, 17)%nat; ((1 # 1)%Q, 18)%nat; ((1 # 1)%Q, 19)%nat; ((1 # 1)%Q, 20)%nat; ((1 # 1)%Q, 21)%nat; ((1 # 1)%Q, 22)%nat; ((1 # 1)%Q, 23)%nat; ((1 # 1)%Q, 24)%nat; ((1 # 1)%Q, 25)%nat; ((1 # 1)%Q, 26)%nat; ((1 # 1)%Q, 27)%nat; ((1 # 1)%Q, 28)%nat; ((1 # 1)%Q, 29)%nat; ((1 # 1)%Q, 30)%nat; ((1 # 1)%Q, 31)%nat; ((1 # 1)%Q, 32)%nat; ((1 # 1)%Q, 33)%nat; ((1 # 1)%Q, 34)%nat; ((1 # 1)%Q, 35)%nat; ((1 # 1)%Q, 36)%nat; ((1 # 1)%Q, 37)%nat; ((1 # 1)%Q, 38)%nat; ((1 # 1)%Q, 39)%nat; ((1 # 1)%Q, 40)%nat; ((1 # 1)%Q, 41)%nat; ((1 # 1)%Q, 42)%nat; ((1 # 1)%Q, 43)%nat; ((1 # 1)%Q, 44)%nat; ((1 # 1)%Q, 45)%nat; ((1 # 1)%Q, 46)%nat; ((1 # 1)%Q, 47)%nat; ((1 # 1)%Q, 48)%nat; ((1 # 1)%Q, 49)%nat; ((1 # 1)%Q, 50)%nat; ((1 # 1)%Q, 51)%nat; ((1 # 1)%Q, 52)%nat; ((1 # 1)%Q, 53)%nat; ((1 # 1)%Q, 54)%nat; ((1 # 1)%Q, 55)%nat; ((1 # 1)%Q, 56)%nat; ((1 # 1)%Q, 57)%nat; ((1 # 1)%Q, 58)%nat; ((1 # 1)%Q, 59)%nat; ((1 # 1)%Q, 60)%nat; ((1 # 1)%Q, 61)%nat; ((1 # 1)%Q, 62)%nat; ((1 # 1)%Q, 63)%nat; ((1 # 1)%Q, 64)%nat; ((1 # 1)%Q, 65)%nat; ((1 # 1)%Q, 66)%nat; ((1 # 1)%Q, 67)%nat; ((1 # 1)%Q, 68)%nat; ((1 # 1)%Q, 69)%nat; ((1 # 1)%Q, 70)%nat; ((1 # 1)%Q, 71)%nat; ((1 # 1)%Q, 72)%nat; ((1 # 1)%Q, 73)%nat; ((1 # 1)%Q, 74)%nat; ((1 # 1)%Q, 75)%nat] (* mM32 *);
   [((1 # 1)%Q, 0)%nat; ((1 # 1)%Q, 1)%nat; ((1 # 1)%Q, 2)%nat; ((1 # 1)%Q, 3)%nat; ((1 # 1)%Q, 4)%nat; ((1 # 1)%Q, 5)%nat; ((1 # 1)%Q, 6)%nat; ((1 # 1)%Q, 7)%nat; ((1 # 1)%Q, 8)%nat; ((1 # 1)%Q, 9)%nat; ((1 # 1)%Q, 10)%nat; ((1 # 1)%Q, 11)%nat; ((1 # 1)%Q, 12)%nat; ((1 # 1)%Q, 13)%nat; ((1 # 1)%Q, 14)%nat; ((1 # 1)%Q, 15)%nat; ((1 # 1)%Q, 16)%nat; ((1 # 1)%Q, 17)%nat; ((1 # 1)%Q, 18)%nat; ((1 # 1)%Q, 19)%nat; ((1 # 1)%Q, 20)%nat; ((1 # 1)%Q, 21)%nat; ((1 # 1)%Q, 22)%nat; ((1 # 1)%Q, 23)%nat; ((1 # 1)%Q, 24)%nat; ((1 # 1)%Q, 25)%nat; ((1 # 1)%Q, 26)%nat; ((1 # 1)%Q, 27)%nat; ((1 # 1)%Q, 28)%nat; ((1 # 1)%Q, 29)%nat; ((1 # 1)%Q, 30)%nat; ((1 # 1)%Q, 31)%nat; ((1 # 1)%Q, 32)%nat; ((1 # 1)%Q, 33)%nat; ((1 # 1)%Q, 34)%nat; ((1 # 1)%Q, 35)%nat; ((1 # 1)%Q, 36)%nat; ((1 # 1)%Q, 37)%nat; ((1 # 1)%Q, 38)%nat; ((1 # 1)%Q, 39)%nat; ((1 # 1)%Q, 40)%nat; ((1 # 1)%Q, 41)%nat; ((1 # 1)%Q, 42)%nat; ((1 # 1)%Q, 43)%nat; ((1 # 1)%Q, 44)%nat; ((1 # 1)%Q, 45)%nat; ((1 # 1)%Q, 46)%nat; ((1 # 1)%Q, 47)%nat; ((1 # 1)%Q, 48)%nat; ((1 # 1)%Q, 49)%nat; ((1 # 1)%Q, 50)%nat; ((1 # 1)%Q, 51)%nat; ((1 # 1)%Q, 52)%nat; ((1 # 1)%Q, 53)%nat; ((1 # 1)%Q, 54)%nat; ((1 # 1)%Q, 55)%nat; ((1 # 1)%Q, 56)%nat; ((1 # 1)%Q, 57)%nat; ((1 # 1)%Q, 58)%nat; ((1 # 1)%Q, 59)%nat; ((1 # 1)%Q, 60)%nat; ((1 # 1)%Q, 61)%nat; ((1 # 1)%Q, 62)%nat; ((1 # 1)%Q, 63)%nat; ((1 # 1)%Q, 64)%nat; ((1 # 1)%Q, 65)%nat; ((1 # 1)%Q, 66)%nat; ((1 # 1)%Q, 67)%nat; ((1 # 1)%Q, 68)%nat; ((1 # 1)%Q, 69)%nat; ((1 # 1)%Q, 70)%nat; ((1 # 1)%Q, 71)%nat; ((1 # 1)%Q, 72)%nat; ((1 # 1)%Q, 73)%nat; ((1 # 1)%Q, 74)%nat; ((1 # 1)%Q, 75)%nat] (* mM33 *);
   [((1 # 1)%Q, 0)%nat; ((1 # 1)%Q, 1)%nat; ((2 # 1)%Q, 2)%nat; ((2 # 1)%Q, 3)%nat; ((1 # 1)%Q, 4)%nat; ((3 # 2)%Q, 5)%nat; ((2 # 1)%Q, 6)%nat; ((6 # 1)%Q, 7)%nat; ((1 # 1)%Q, 8)%nat; ((1 # 1)%Q, 9)%nat; ((1 # 1)%Q, 10)%nat; ((1 # 1)%Q, 11)%nat; ((1 # 1)%Q, 12)%nat; ((3 # 1)%Q, 13)%nat; ((1 # 1)%Q, 14)%nat; ((1 # 1)%Q, 15)%nat; ((1 # 1)%Q, 16)%nat; ((1 # 1)%Q, 17)%nat; ((1 # 1)%Q, 18)%nat; ((1 # 1)%Q, 19)%nat; ((1 # 1)%Q, 20)%nat; ((1 # 1)%Q, 21)%nat; ((1 # 1)%Q, 22)%nat; ((1 # 1)%Q, 23)%nat; ((1 # 1)%Q, 24)%nat; ((1 # 1)%Q, 25)%nat; ((1 # 1)%Q, 26)%nat; ((1 # 1)%Q, 27)%nat; ((1 # 1)%Q, 28)%nat; ((1 # 1)%Q, 29)%nat; ((1 # 1)%Q, 30)%nat; ((1 # 1)%Q, 31)%nat; ((1 # 1)%Q, 32)%nat; ((1 # 1)%Q, 33)%nat; ((1 # 1)%Q, 34)%nat; ((1 # 1)%Q, 35)%nat; ((1 # 1)%Q, 36)%nat; ((1 # 1)%Q, 37)%nat; ((1 # 1)%Q, 38)%nat; ((1 # 1)%Q, 39)%nat; ((1 # 1)%Q, 40)%nat; ((1 # 1)%Q, 41)%nat; ((1 # 1)%Q, 42)%nat; ((1 # 1)%Q, 43)%nat; ((1 # 1)%Q, 44)%nat; ((1 # 1)%Q, 45)%nat; ((1 # 1)%Q, 46)%nat; ((1 # 1)%Q, 47)%nat; ((1 # 1)%Q, 48)%nat; ((1 # 1)%Q, 49)%nat; ((1 # 1)%Q, 50)%nat; ((1 # 1)%Q, 51)%nat; ((1 # 1)%Q, 52)%nat; ((1 # 1)%Q, 53)%nat; ((1 # 1)%Q, 54)%nat; ((1 # 1)%Q, 55)%nat; ((1 # 1)%Q, 56)%nat; ((1 # 1)%Q, 57)%nat; ((1 # 1)%Q, 58)%nat; ((1 # 1)%Q, 59)%nat; ((1 # 1)%Q, 60)%nat; ((1 # 1)%Q, 61)%nat; ((1 # 1)%Q, 62)%nat; ((1 # 1)%Q, 63)%nat; ((1 # 1)%Q, 64)%nat; ((1 # 1)%Q, 65)%nat; ((1 # 1)%Q, 66)%nat; ((1 # 1)%Q, 67)%nat; ((1 # 1)%Q, 68)%nat; ((1 # 1)%Q, 69)%nat; ((1 # 1)%Q, 70)%nat; ((1 # 1)%Q, 71)%nat; ((1 # 1)%Q, 72)%nat; ((1 # 1)%Q, 73)%nat; ((3152519739159347 # 4503599627370496)%Q, 74)%nat; ((3152519739159347 # 4503599627370496)%Q, 75)%nat] (* mM34 *);
   [((1 # 1)%Q, 0)%nat; ((1 # 1)%Q, 1)%nat; ((2 # 1)%Q, 2)%nat; ((2 # 1)%Q, 3)%nat; ((1 # 1)%Q, 4)%nat; ((3 # 2)%Q, 5)%nat; ((2 # 1)%Q, 6)%nat; ((6 # 1)%Q, 7)%nat; ((1 # 1)%Q, 8)%nat; ((1 # 1)%Q, 9)%nat; ((1 # 1)%Q, 10)%nat; ((1 # 1)%Q, 11)%nat; ((1 # 1)%Q, 12)%nat; ((3 # 1)%Q, 13)%nat; ((1 # 1)%Q, 14)%nat; ((1 # 1)%Q, 15)%nat; ((1 # 1)%Q, 16)%nat; ((1 # 1)%Q, 17)%nat; ((1 # 1)%Q, 18)%nat; ((1 # 1)%Q, 19)%nat; ((1 # 1)%Q, 20)%nat; ((1 # 1)%Q, 21)%nat; ((1 # 1)%Q, 22)%nat; ((1 # 1)%Q, 23)%nat; ((1 # 1)%Q, 24)%nat; ((1 # 1)%Q, 25)%nat; ((1 # 1)%Q, 26)%nat; ((1 # 1)%Q, 27)%nat; ((1 # 1)%Q, 28)%nat; ((1 # 1)%Q, 29)%nat; ((1 # 1)%Q, 30)%nat; ((1 # 1)%Q, 31)%nat; ((1 # 1)%Q, 32)%nat; ((1 # 1)%Q, 33)%nat; ((1 # 1)%Q, 34)%nat; ((1 # 1)%Q, 35)%nat; ((1 # 1)%Q, 36)%nat; ((1 # 1)%Q, 37)%nat; ((1 # 1)%Q, 38)%nat; ((1 # 1)%Q, 39)%nat; ((1 # 1)%Q, 40)%nat; ((1 # 1)%Q, 41)%nat; ((1 # 1)%Q, 42)%nat; ((1 # 1)%Q, 43)%nat; ((1 # 1)%Q, 44)%nat; ((1 # 1)%Q, 45)%nat; ((1 # 1)%Q, 46)%nat; ((1 # 1)%Q, 47)%nat; ((1 # 1)%Q, 48)%nat; ((1 # 1)%Q, 49)%nat; ((1 # 1)%Q, 50)%nat; ((1 # 1)%Q, 51)%nat; ((1 # 1)%Q, 52)%nat; ((1 # 1)%Q, 53)%nat; ((1 # 1)%Q, 54)%nat; ((1 # 1)%Q, 55)%nat; ((1 # 1)%Q, 56)%nat; ((1 # 1)%Q, 57)%nat; ((1 # 1)%Q, 58)%nat; ((1 # 1)%Q, 59)%nat; ((1 # 1)%Q, 60)%nat; ((1 # 1)%Q, 61)%nat; ((1 # 1)%Q, 62)%nat; ((1 # 1)%Q, 63)%nat; ((1 # 1)%Q, 64)%nat; ((1 # 1)%Q, 65)%nat; ((1 # 1)%Q, 66)%nat; ((1 # 1)%Q, 67)%nat; ((1 # 1)%Q, 68)%nat; ((1 # 1)%Q, 69)%nat; ((1 # 1)%Q, 70)%nat; ((1 # 1)%Q, 71)%nat; ((1 # 1)%Q, 72)%nat; ((1 # 1)%Q, 73)%nat; ((1 # 1)%Q, 74)%nat; ((3152519739159347 # 4503599627370496)%Q, 75)%nat] (* mM35 *);
   [((1 # 1)%Q, 0)%nat; ((1 # 1)%Q, 1)%nat; ((2 # 1)%Q, 2)%nat; ((2 # 1)%Q, 3)%nat; ((1 # 1)%Q, 4)%nat; ((3 # 2)%Q, 5)%nat; ((2 # 1)%Q, 6)%nat; ((6 # 1)%Q, 7)%nat; ((1 # 1)%Q, 8)%nat; ((1 # 1)%Q, 9)%nat; ((1 # 1)%Q, 10)%nat; ((1 # 1)%Q, 11)%nat; ((1 # 1)%Q, 12)%nat; ((3 # 1)%Q, 13)%nat; ((1 # 1)%Q, 14)%nat; ((1 # 1)%Q, 15)%nat; ((1 # 1)%Q, 16)%nat; ((1 # 1)%Q, 17)%nat; ((1 # 1)%Q, 18)%nat; ((1 # 1)%Q, 19)%nat; ((1 # 1)%Q, 20)%nat; ((1 # 1)%Q, 21)%nat; ((1 # 1)%Q, 22)%nat; ((1 # 1)%Q, 23)%nat; ((1 # 1)%Q, 24)%nat; ((1 # 1)%Q, 25)%nat; ((1 # 1)%Q, 26)%nat; ((1 # 1)%Q, 27)%nat; ((1 # 1)%Q, 28)%nat; ((1 # 1)%Q, 29)%nat; ((1 # 1)%Q, 30)%nat; ((1 # 1)%Q, 31)%nat; ((1 # 1)%Q, 32)%nat; ((1 # 1)%Q, 33)%nat; ((1 # 1)%Q, 34)%nat; ((1 # 1)%Q, 35)%nat; ((1 # 1)%Q, 36)%nat; ((1 # 1)%Q, 37)%nat; ((1 # 1)%Q, 38)%nat; ((1 # 1)%Q, 39)%nat; ((1 # 1)%Q, 40)%nat; ((1 # 1)%Q, 41)%nat; ((1 # 1)%Q, 42)%nat; ((1 # 1)%Q, 43)%nat; ((1 # 1)%Q, 44)%nat; ((1 # 1)%Q, 45)%nat; ((1 # 1)%Q, 46)%nat; ((1 # 1)%Q, 47)%nat; ((1 # 1)%Q, 48)%nat; ((1 # 1)%Q, 49)%nat; ((1 # 1)%Q, 50)%nat; ((1 # 1)%Q, 51)%nat; ((1 # 1)%Q, 52)%nat; ((1 # 1)%Q, 53)%nat; ((1 # 1)%Q, 54)%nat; ((1 # 1)%Q, 55)%nat; ((1 # 1)%Q, 56)%nat; ((1 # 1)%Q, 57)%nat; ((1 # 1)%Q, 58)%nat; ((1 # 1)%Q, 59)%nat; ((1 # 1)%Q, 60)%nat; ((1 # 1)%Q, 61)%nat; ((1 # 1)%Q, 62)%nat; ((1 # 1)%Q, 63)%nat; ((1 # 1)%Q, 64)%nat; ((1 # 1)%Q, 65)%nat; ((1 # 1)%Q, 66)%nat; ((1 # 1)%Q, 67)%nat; ((1 # 1)%Q, 68)%nat; ((1 # 1)%Q, 69)%nat; ((1 # 1)%Q, 70)%nat; ((1 # 1)%Q, 71)%nat; ((1 # 1)%Q, 72)%nat; ((1 # 1)%Q, 73)%nat; ((3152519739159347 # 4503599627370496)%Q, 74)%nat; ((3152519739159347 # 4503599627370496)%Q, 75)%nat] (* mM36 *);
   [((1 # 1)%Q, 0)%nat; ((1 # 1)%Q, 1)%nat; ((2 # 1)%Q, 2)%nat; ((2 # 1)%Q, 3)%nat; ((1 # 1)%Q, 4)%nat; ((3 # 2)%Q, 5)%nat; ((2 # 1)%Q, 6)%nat; ((6 # 1)%Q, 7)%nat; ((1 # 1)%Q, 8)%nat; ((1 # 1)%Q, 9)%nat; ((1 # 1)%Q, 10)%nat; ((1 # 1)%Q, 11)%nat; ((1 # 1)%Q, 12)%nat; ((3 # 1)%Q, 13)%nat; ((1 # 1)%Q, 14)%nat; ((1 # 1)%Q, 15)%nat; ((1 # 1)%Q, 16)%nat; ((1 # 1)%Q, 17)%nat; ((1 # 1)%Q, 18)%nat; ((1 # 1)%Q, 19)%nat; ((1 # 1)%Q, 20)%nat; ((1 # 1)%Q, 21)%nat; ((1 # 1)%Q, 22)%nat; ((1 # 1)%Q, 23)%nat; ((1 # 1)%Q, 24)%nat; ((1 # 1)%Q, 25)%nat; ((1 # 1)%Q, 26)%nat; ((1 # 1)%Q, 27)%nat; ((1 # 1)%Q, 28)%nat; ((1 # 1)%Q, 29)%nat; ((1 # 1)%Q, 30)%nat; ((1 # 1)%Q, 31)%nat; ((1 # 1)%Q, 32)%nat; ((1 # 1)%Q, 33)%nat; ((1 # 1)%Q, 34)%nat; ((1 # 1)%Q, 35)%nat; ((1 # 1)%Q, 36)%nat; ((1 # 1)%Q, 37)%nat; ((1 # 1)%Q, 38)%nat; ((1 # 1)%Q, 39)%nat; ((1 # 1)%Q, 40)%nat; ((1 # 1)%Q, 41)%nat; ((1 # 1)%Q, 42)%nat; ((1 # 1)%Q, 43)%nat; ((1 # 1)%Q, 44)%nat; ((1 # 1)%Q, 45)%nat; ((1 # 1)%Q, 46)%nat; ((1 # 1)%Q, 47)%nat; ((1 # 1)%Q, 48)%nat; ((1 # 1)%Q, 49)%nat; ((1 # 1)%Q, 50)%nat; ((1 # 1)%Q, 51)%nat; ((1 # 1)%Q, 52)%nat; ((1 # 1)%Q, 53)%nat; ((1 # 1)%Q, 54)%nat; ((1 # 1)%Q, 55)%nat; ((1 # 1)%Q, 56)%nat; ((1 # 1)%Q, 57)%nat; ((1 # 1)%Q, 58)%nat; ((1 # 1)%Q, 59)%nat; ((1 # 1)%Q, 60)%nat; ((1 # 1)%Q, 61)%nat; ((1 # 1)%Q, 62)%nat; ((1 # 1)%Q, 63)%nat; ((1 # 1)%Q, 64)%nat; ((1 # 1)%Q, 65)%nat; ((1 # 1)%Q, 66)%nat; ((1 # 1)%Q, 67)%nat; ((1 # 1)%Q, 68)%nat; ((1 # 1)%Q, 69)%nat; ((1 # 1)%Q, 70)%nat; ((1 # 1)%Q, 71)%nat; ((1 # 1)%Q, 72)%nat; ((1 # 1)%Q, 73)%nat; ((3152519739159347 # 4503599627370496)%Q, 74)%nat; ((3152519739159347 # 4503599627370496)%Q, 75)%nat] (* mM37 *);
   [((1 # 1)%Q, 0)%nat; ((1 # 1)%Q, 1)%nat; ((2 # 1)%Q, 2)%nat; ((2 # 1)%Q, 3)%nat; ((1 # 1)%Q, 4)%nat; ((3 # 2)%Q, 5)%nat; ((2 # 1)%Q, 6)%nat; ((6 # 1)%Q, 7)%nat; ((1 # 1)%Q, 8)%nat; ((1 # 1)%Q, 9)%nat; ((1 # 1)%Q, 10)%nat; ((1 # 1)%Q, 11)%nat; ((1 # 1)%Q, 12)%nat; ((3 # 1)%Q, 13)%nat; ((1 # 1)%Q, 14)%nat; ((1 # 1)%Q, 15)%nat; ((1 # 1)%Q, 16)%nat; ((1 # 1)%Q, 17)%nat; ((1 # 1)%Q, 18)%nat; ((1 # 1)%Q, 19)%nat; ((1 # 1)%Q, 20)%nat; ((1 # 1)%Q, 21)%nat; ((1 # 1)%Q, 22)%nat; ((1 # 1)%Q, 23)%nat; ((1 # 1)%Q, 24)%nat; ((1 # 1)%Q, 25)%nat; ((1 # 1)%Q, 26)%nat; ((1 # 1)%Q, 27)%nat; ((1 # 1)%Q, 28)%nat; ((1 # 1)%Q, 29)%nat; ((1 # 1)%Q, 30)%nat; ((1 # 1)%Q, 31)%nat; ((1 # 1)%Q, 32)%nat; ((1 # 1)%Q, 33)%nat; ((1 # 1)%Q, 34)%nat; ((1 # 1)%Q, 35)%nat; ((1 # 1)%Q, 36)%nat; ((1 # 1)%Q, 37)%nat; ((1 # 1)%Q, 38)%nat; ((1 # 1)%Q, 39)%nat; ((5 # 2)%Q, 40)%nat; ((1 # 1)%Q, 41)%nat; ((1 # 1)%Q, 42)%nat; ((1 # 1)%Q, 43)%nat; ((1 # 1)%Q, 44)%nat; ((1 # 1)%Q, 45)%nat; ((1 # 1)%Q, 46)%nat; ((1 # 1)%Q, 47)%nat; ((1 # 1)%Q, 48)%nat; ((1 # 1)%Q, 49)%nat; ((1 # 1)%Q, 50)%nat; ((1 # 1)%Q, 51)%nat; ((1 # 1)%Q, 52)%nat; ((1 # 1)%Q, 53)%nat; ((1 # 1)%Q, 54)%nat; ((1 # 1)%Q, 55)%nat; ((1 # 1)%Q, 56)%nat; ((5 # 2)%Q, 57)%nat; ((1 # 1)%Q, 58)%nat; ((1 # 1)%Q, 59)%nat; ((1 # 1)%Q, 60)%nat; ((1 # 1)%Q, 61)%nat; ((1 # 1)%Q, 62)%nat; ((1 # 1)%Q, 63)%nat; ((1 # 1)%Q, 64)%nat; ((1 # 1)%Q, 65)%nat; ((1 # 1)%Q, 66)%nat; ((1 # 1)%Q, 67)%nat; ((1 # 1)%Q, 68)%nat; ((1 # 1)%Q, 69)%nat; ((1 # 1)%Q, 70)%nat; ((1 # 1)%Q, 71)%nat; ((1 # 1)%Q, 72)%nat; ((1 # 1)%Q, 73)%nat; ((1 # 1)%Q, 74)%nat; ((1 # 1)%Q, 75)%nat] (* mM38 *);
   [((1 # 1)%Q, 0)%nat; ((1 # 1)%Q, 1)%nat; ((1 # 1)%Q, 2)%nat; ((1 # 1)%Q, 3)%nat; ((1 # 1)%Q, 4)%nat; ((1 # 1)%Q, 5)%nat; ((1 # 1)%Q, 6)%nat; ((1 # 1)%Q, 7)%nat; ((1 # 1)%Q, 8)%nat; ((1 # 1)%Q, 9)%nat; ((1 # 1)%Q, 10)%nat; ((1 # 1)%Q, 11)%nat; ((1 # 1)%Q, 12)%nat; ((1 # 1)%Q, 13)%nat; ((1 # 1)%Q, 14)%nat; ((1 # 1)%Q, 15)%nat; ((1 # 1)%Q, 16)%nat; ((1 # 1)%Q, 17)%nat; ((1 # 1)%Q, 18)%nat; ((1 # 1)%Q, 19)%nat; ((1 # 1)%Q, 20)%nat; ((1 # 1)%Q, 21)%nat; ((1 # 1)%Q, 22)%nat; ((1 # 1)%Q, 23)%nat; ((1 # 1)%Q, 24)%nat; ((1 # 1)%Q, 25)%nat; ((1 # 1)%Q, 26)%nat; ((1 # 1)%Q, 27)%nat; ((1 # 1)%Q, 28)%nat; ((1 # 1)%Q, 29)%nat; ((1 # 1)%Q, 30)%nat; ((1 # 1)%Q, 31)%nat; ((1 # 1)%Q, 32)%nat; ((1 # 1)%Q, 33)%nat; ((1 # 1)%Q, 34)%nat; ((1 # 1)%Q, 35)%nat; ((1 # 1)%Q, 36)%nat; ((1 # 1)%Q, 37)%nat; ((1 # 1)%Q, 38)%nat; ((1 # 1)%Q, 39)%nat; ((1 # 1)%Q, 40)%nat; ((1 # 1)%Q, 41)%nat; ((1 # 1)%Q, 42)%nat; ((1 # 1)%Q, 43)%nat; ((1 # 1)%Q, 44)%nat; ((1 # 1)%Q, 45)%nat; ((1 # 1)%Q, 46)%nat; ((1 # 1)%Q, 47)%nat; ((1 # 1)%Q, 48)%nat; ((1 # 1)%Q, 49)%nat; ((1 # 1)%Q, 50)%nat; ((1 # 1)%Q, 51)%nat; ((1 # 1)%Q, 52)%nat; ((1 # 1)%Q, 53)%nat; ((1 # 1)%Q, 54)%nat; ((1 # 1)%Q, 55)%nat; ((1 # 1)%Q, 56)%nat; ((1 # 1)%Q, 57)%nat; ((1 # 1)%Q, 58)%nat; ((1 # 1)%Q, 59)%nat; ((1 # 1)%Q, 60)%nat; ((1 # 1)%Q, 61)%nat; ((1 # 1)%Q, 62)%nat; ((1 # 1)%Q, 63)%nat; ((1 # 1)%Q, 64)%nat; ((1 # 1)%Q, 65)%nat; ((1 # 1)%Q, 66)%nat; ((1 # 1)%Q, 67)%nat; ((1 # 1)%Q, 68)%nat; ((1 # 1)%Q, 69)%nat; ((1 # 1)%Q, 70)%nat; ((1 # 1)%Q, 71)%nat; ((1 # 1)%Q, 72)%nat; ((1 # 1)%Q, 73)%nat; ((1 # 1)%Q, 74)%nat; ((1 # 1)%Q, 75)%nat] (* mM39 *);
   [((1 # 1)%Q, 0)%nat; ((1 # 1)%Q, 1)%nat; ((1 # 1)%Q, 2)%nat; ((1 # 1)%Q, 3)%nat; ((1 # 1)%Q, 4)%nat; ((1 # 1)%Q, 5)%nat; ((1 # 1)%Q, 6)%nat; ((1 # 1)%Q, 7)%nat; ((1 # 1)%Q, 8)%nat; ((1 # 1)%Q, 9)%nat; ((1 # 1)%Q, 10)%nat; ((1 # 1)%Q, 11)%nat; ((1 # 1)%Q, 12)%nat; ((1 # 1)%Q, 13)%nat; ((1 # 1)%Q, 14)%nat; ((1 # 1)%Q, 15)%nat; ((1 # 1)%Q, 16)%nat; ((1 # 1)%Q, 17)%nat; ((1 # 1)%Q, 18)%nat; ((1 # 1)%Q, 19)%nat; ((1 # 1)%Q, 20)%nat; ((1 # 1)%Q, 21)%nat; ((1 # 1)%Q, 22)%nat; ((1 # 1)%Q, 23)%nat; ((1 # 1)%Q, 24)%nat; ((1 # 1)%Q, 25)%nat; ((1 # 1)%Q, 26)%nat; ((1 # 1)%Q, 27)%nat; ((1 # 1)%Q, 28)%nat; ((1 # 1)%Q, 29)%nat; ((1 # 1)%Q, 30)%nat; ((1 # 1)%Q, 31)%nat; ((1 # 1)%Q, 32)%nat; ((1 # 1)%Q, 33)%nat; ((1 # 1)%Q, 34)%nat; ((1 # 1)%Q, 35)%nat; ((1 # 1)%Q, 36)%nat; ((1 # 1)%Q, 37)%nat; ((1 # 1)%Q, 38)%nat; ((1 # 1)%Q, 39)%nat; ((1 # 1)%Q, 40)%nat; ((1 # 1)%Q, 41)%nat; ((1 # 1)%Q, 42)%nat; ((1 # 1)%Q, 43)%nat; ((1 # 1)%Q, 44)%nat; ((1 # 1)%Q, 45)%nat; ((1 # 1)%Q, 46)%nat; ((1 # 1)%Q, 47)%nat; ((1 # 1)%Q, 48)%nat; ((1 # 1)%Q, 49)%nat; ((1 # 1)%Q, 50)%nat; ((1 # 1)%Q, 51)%nat; ((1 # 1)%Q, 52)%nat; ((1 # 1)%Q, 53)%nat; ((1 # 1)%Q, 54)%nat; ((1 # 1)%Q, 55)%nat; ((1 # 1)%Q, 56)%nat; ((1 # 1)%Q, 57)%nat; ((1 # 1)%Q, 58)%nat; ((1 # 1)%Q, 59)%nat; ((1 # 1)%Q, 60)%nat; ((1 # 1)%Q, 61)%nat; ((1 # 1)%Q, 62)%nat; ((1 # 1)%Q, 63)%nat; ((1 # 1)%Q, 64)%nat; ((1 # 1)%Q, 65)%nat; ((1 # 1)%Q, 66)%nat; ((1 # 1)%Q, 67)%nat; ((1 # 1)%Q, 68)%nat; ((1 # 1)%Q, 69)%nat; ((1 # 1)%Q, 70)%nat; ((1 # 1)%Q, 71)%nat; ((1 # 1)%Q, 72)%nat; ((1 # 1)%Q, 73)%nat; ((1 # 1)%Q, 74)%nat; ((1 # 1)%Q, 75)%nat] (* mM40 *)].

(** Rate coefficients, src/equations/ideal_gas_mix/mechanism/AramcoMech_DMEonly_74spec.cpp:669-3647, and rates, :3649-4483, of the reactions; label, line of the coefficient and of the rate in comments *)
Definition aramco74_reactions : list (coefficient * list factor) :=
  [(Simple (Arr (104000000000 # 1) (0 # 1) (63956624 # 1)), [Conc 8; Conc 4]) (* r1f 669 3649 *);
   (Simple (Arr (3602380523377213 # 16777216) (1943431294636387 # 4503599627370496) ((-1767431372178883) # 268435456)), [Conc 10; Conc 9]) (* r1b 670 3650 *);
   (Simple (Arr (3574732204225331 # 70368744177664) (1503076375634903 # 562949953421312) (7066758800211969 # 268435456)), [Conc 9; Conc 3]) (* r2f 672 3651 *);
   (Simple (Arr (1049383715937969 # 35184372088832) (5937238627337513 # 2251799813685248) (5496092064362355 # 268435456)), [Conc 10; Conc 8]) (* r2b 674 3652 *);
   (Simple (Arr (43800000000 # 1) (0 # 1) (7850706295848961 # 268435456)), [Conc 10; Conc 3]) (* r3f 676 3653 *);
   (Simple (Arr (3882218354059385 # 8192) ((-57215772251959) # 562949953421312) (6175587556916839 # 67108864)), [Conc 7; Conc 8]) (* r3b 677 3654 *);
   (Simple (Arr (6531099068989439 # 2199023255552) (4548635623644201 # 2251799813685248) (7524997450956801 # 134217728)), [Conc 9; Conc 7]) (* r4f 679 3655 *);
   (Simple (Arr (5670366803259269 # 35184372088832) (1175607959362773 # 562949953421312) ((-1686157882876753) # 134217728)), [Conc 10; Conc 10]) (* r4b 681 3656 *);
   (Simple (Arr (45770000000000000 # 1) ((-3152519739159347) # 2251799813685248) (7328449010073601 # 16777216)), [Conc 3; Third 0]) (* r5f 683 3657 *);
   (Simple (Arr (6098446497671147 # 32) ((-3933151530198337) # 2251799813685248) (61913201007003 # 16777216)), [Conc 8; Conc 8; Third 0]) (* r5b 685 3658 *);
   (Simple (Arr (6165000000 # 1) ((-1) # 2) (0 # 1)), [Conc 9; Conc 9; Third 1]) (* r6f 687 3659 *);
   (Simple (Arr (3368365367731823 # 8) ((-21750791223633) # 35184372088832) (8351847694316305 # 16777216)), [Conc 4; Third 1]) (* r6b 688 3660 *);
   (Simple (Arr (4714000000000 # 1) ((-1) # 1) (0 # 1)), [Conc 9; Conc 8; Third 2]) (* r7f 690 3661 *);
   (Simple (Arr (664694452791023 # 1) ((-12079960139359) # 17592186044416) (7168369138076273 # 16777216)), [Conc 10; Third 2]) (* r7b 691 3662 *);
   (Simple (Arr (35000000000000000 # 1) ((-2) # 1) (0 # 1)), [Conc 8; Conc 10; Third 3]) (* r8f 693 3663 *);
   (Simple (Arr (90948516901420974080 # 1) ((-123494716416527) # 70368744177664) (4159881777402755 # 8388608)), [Conc 7; Third 3]) (* r8b 694 3664 *);
   (Falloff (Arr (17370000000000 # 1) ((-2769713770832855) # 2251799813685248) (0 # 1)) (Arr (4650000000 # 1) (7926335344172073 # 18014398509481984) (0 # 1)) [Decay (2972375754064527 # 9007199254740992) (178405961588245 # 178405961588244985132285746181186892047843328); Decay (6034823500676465 # 9007199254740992) (1000000000000000019884624838656 # 1); Grow (1 # 1) (1000000000000000019884624838656 # 1)] 4, [Conc 8; Conc 4]) (* r9f 701 3665 *);
   (Falloff (Arr (25502656776794068 # 1) ((-350249940514747) # 281474976710656) (1719177436586235 # 8388608)) (Arr (3495493681876299 # 512) (7668049317891105 # 18014398509481984) (1719177436586235 # 8388608)) [Decay (2972375754064527 # 9007199254740992) (178405961588245 # 178405961588244985132285746181186892047843328); Decay (6034823500676465 # 9007199254740992) (1000000000000000019884624838656 # 1); Grow (1 # 1) (1000000000000000019884624838656 # 1)] 4, [Conc 17]) (* r9b 706 3666 *);
   (Falloff (Arr (6810000000000 # 1) ((-5404319552844595) # 4503599627370496) (0 # 1)) (Arr (4650000000 # 1) (7926335344172073 # 18014398509481984) (0 # 1)) [Decay (1351079888211149 # 4503599627370496) (178405961588245 # 178405961588244985132285746181186892047843328); Decay (3152519739159347 # 4503599627370496) (1000000000000000019884624838656 # 1); Grow (1 # 1) (1000000000000000019884624838656 # 1)] 5, [Conc 8; Conc 4]) (* r10f 712 3667 *);
   (Falloff (Arr (9998450929762042 # 1) ((-85451422803357) # 70368744177664) (859588718293117 # 4194304)) (Arr (6990987363752561 # 1024) (7668049317891061 # 18014398509481984) (859588718293117 # 4194304)) [Decay (1351079888211149 # 4503599627370496) (178405961588245 # 178405961588244985132285746181186892047843328); Decay (3152519739159347 # 4503599627370496) (1000000000000000019884624838656 # 1); Grow (1 # 1) (1000000000000000019884624838656 # 1)] 5, [Conc 17]) (* r10b 717 3668 *);
   (Falloff (Arr (9192000000000 # 1) ((-5404319552844595) # 4503599627370496) (0 # 1)) (Arr (4650000000 # 1) (7926335344172073 # 18014398509481984) (0 # 1)) [Decay (3692951694443807 # 9007199254740992) (178405961588245 # 178405961588244985132285746181186892047843328); Decay (5314247560297185 # 9007199254740992) (1000000000000000019884624838656 # 1); Grow (1 # 1) (1000000000000000019884624838656 # 1)] 6, [Conc 8; Conc 4]) (* r11f 723 3669 *);
   (Falloff (Arr (13495706453216908 # 1) ((-341805691213441) # 281474976710656) (1719177436586237 # 8388608)) (Arr (3495493681877591 # 512) (7668049317890229 # 18014398509481984) (1719177436586237 # 8388608)) [Decay (3692951694443807 # 9007199254740992) (178405961588245 # 178405961588244985132285746181186892047843328); Decay (5314247560297185 # 9007199254740992) (1000000000000000019884624838656 # 1); Grow (1 # 1) (1000000000000000019884624838656 # 1)] 6, [Conc 17]) (* r11b 728 3670 *);
   (Simple (Arr (70790000000 # 1) (0 # 1) (1234280 # 1)), [Conc 17; Conc 8]) (* r12f 729 3671 *);
   (Simple (Arr (7535724382316935 # 536870912) (106847894778059 # 140737488355328) (2567243490828285 # 16777216)), [Conc 10; Conc 10]) (* r12b 730 3672 *);
   (Simple (Arr (1138214437073715 # 2199023255552) (342414309168513 # 140737488355328) (7511239060094977 # 33554432)), [Conc 3; Conc 4]) (* r13f 732 3673 *);
   (Simple (Arr (869777237548235 # 274877906944) (583213925295837 # 281474976710656) ((-1160982493548563) # 268435456)), [Conc 17; Conc 8]) (* r13b 734 3674 *);
   (Simple (Arr (32500000000 # 1) (0 # 1) (0 # 1)), [Conc 17; Conc 9]) (* r14f 736 3675 *);
   (Simple (Arr (6545760913853271 # 2097152) (46115666820767 # 140737488355328) (7460028529807629 # 33554432)), [Conc 4; Conc 10]) (* r14b 737 3676 *);
   (Simple (Arr (24560000000 # 1) (0 # 1) ((-8931161153732609) # 4294967296)), [Conc 17; Conc 10]) (* r15f 739 3677 *);
   (Simple (Arr (1424361632989435 # 32768) (285182839515 # 1099511627776) (4846521333376281 # 16777216)), [Conc 4; Conc 7]) (* r15b 740 3678 *);
   (Simple (Arr (130000000 # 1) (0 # 1) ((-7322833340334081) # 1073741824)), [Conc 17; Conc 17]) (* r16f 742 3679 *);
   (Simple (Arr (3218022807704807 # 524288) ((-68656332551965) # 281474976710656) (5175194842970279 # 33554432)), [Conc 4; Conc 18]) (* r16b 743 3680 *);
   (Simple (Arr (365800000000 # 1) (0 # 1) (6738803687424001 # 134217728)), [Conc 17; Conc 17]) (* r17f 745 3681 *);
   (Simple (Arr (8842794043472889 # 512) ((-4291020784487) # 17592186044416) (7088734306711805 # 33554432)), [Conc 4; Conc 18]) (* r17b 746 3682 *);
   (Falloff (Arr (18649999999999999475712 # 1) ((-2589569785738035) # 1125899906842624) (6843957103296513 # 33554432)) (Arr (2000000000000 # 1) (8106479329266893 # 9007199254740992) (6843957103296513 # 33554432)) [Decay (2206763817411543 # 4503599627370496) (178405961588245 # 178405961588244985132285746181186892047843328); Decay (2296835809958953 # 4503599627370496) (1000000000000000019884624838656 # 1)] 7, [Conc 18]) (* r18f 754 3683 *);
   (Falloff (Arr (6828268177771133 # 128) ((-5776073682642741) # 4503599627370496) ((-5499433769220109) # 536870912)) (Arr (6290013621843331 # 1099511627776) (4317722562471423 # 2251799813685248) ((-1374858442305027) # 134217728)) [Decay (2206763817411543 # 4503599627370496) (178405961588245 # 178405961588244985132285746181186892047843328); Decay (2296835809958953 # 4503599627370496) (1000000000000000019884624838656 # 1)] 7, [Conc 10; Conc 10]) (* r18b 759 3684 *);
   (Falloff (Arr (2490000000000000000000 # 1) ((-2589569785738035) # 1125899906842624) (6843957103296513 # 33554432)) (Arr (2000000000000 # 1) (8106479329266893 # 9007199254740992) (6843957103296513 # 33554432)) [Decay (2567051787601183 # 4503599627370496) (178405961588245 # 178405961588244985132285746181186892047843328); Decay (7746191359077253 # 18014398509481984) (1000000000000000019884624838656 # 1)] 8, [Conc 18]) (* r19f 766 3685 *);
   (Falloff (Arr (7293249442420025 # 1024) ((-5776073682642465) # 4503599627370496) ((-5499433769220375) # 536870912)) (Arr (6290013621840209 # 1099511627776) (4317722562471561 # 2251799813685248) ((-5499433769220367) # 536870912)) [Decay (2567051787601183 # 4503599627370496) (178405961588245 # 178405961588244985132285746181186892047843328); Decay (7746191359077253 # 18014398509481984) (1000000000000000019884624838656 # 1)] 8, [Conc 10; Conc 10]) (* r19b 771 3686 *);
   (Simple (Arr (24100000000 # 1) (0 # 1) (4458841773178881 # 268435456)), [Conc 18; Conc 8]) (* r20f 772 3687 *);
   (Simple (Arr (6154832404203189 # 34359738368) (44419866127991 # 35184372088832) (5004605308692691 # 16777216)), [Conc 10; Conc 7]) (* r20b 773 3688 *);
   (Simple (Arr (21500000 # 1) (1 # 1) (6738803687424001 # 268435456)), [Conc 18; Conc 8]) (* r21f 775 3689 *);
   (Simple (Arr (2559402120020381 # 34359738368) (451746002304545 # 281474976710656) (3094678947861193 # 33554432)), [Conc 17; Conc 3]) (* r21b 776 3690 *);
   (Simple (Arr (5250168022630399 # 549755813888) (2 # 1) (4458841773178881 # 268435456)), [Conc 18; Conc 9]) (* r22f 778 3691 *);
   (Simple (Arr (683477460536865 # 35184372088832) (1447675239229671 # 562949953421312) (1306675183299647 # 16777216)), [Conc 17; Conc 10]) (* r22b 780 3692 *);
   (Simple (Arr (1740000000 # 1) (0 # 1) (5714505526935553 # 4294967296)), [Conc 18; Conc 10]) (* r23f 782 3693 *);
   (Simple (Arr (4377188575992619 # 67108864) (70831569733883 # 140737488355328) (1100857138209895 # 8388608)), [Conc 17; Conc 7]) (* r23b 783 3694 *);
   (Simple (Arr (75900000000 # 1) (0 # 1) (8164060667314177 # 268435456)), [Conc 18; Conc 10]) (* r24f 785 3695 *);
   (Simple (Arr (5966749513630749 # 2097152) (141663139467869 # 281474976710656) (1344822890456175 # 8388608)), [Conc 17; Conc 7]) (* r24b 786 3696 *);
   (Falloff (Arr (1173000000000000000 # 1) ((-3141260740090921) # 1125899906842624) (4707054375665665 # 268435456)) (Arr (13620000 # 1) (0 # 1) (9974656 # 1)) [Grow (1 # 1) (0 # 1)] 9, [Conc 5; Conc 9]) (* r25f 792 3697 *);
   (Falloff (Arr (871578269184051622302449664 # 1) ((-263823218755677) # 70368744177664) (2316184448649937 # 4194304)) (Arr (10120115964438862 # 1) ((-1079910759999911) # 1125899906842624) (2284473463589585 # 4194304)) [Grow (1 # 1) (0 # 1)] 9, [Conc 6]) (* r25b 797 3698 *);
   (Simple (Arr (1119000000 # 1) (0 # 1) (6696686164377601 # 33554432)), [Conc 5; Conc 4]) (* r26f 798 3699 *);
   (Simple (Arr (1558304454447799 # 128) ((-236708848565753) # 281474976710656) (7934084567986593 # 33554432)), [Conc 9; Conc 6]) (* r26b 799 3700 *);
   (Simple (Arr (4936367404063129 # 70368744177664) (2311472508747907 # 1125899906842624) ((-6391979924311245) # 4294967296)), [Conc 5; Conc 10]) (* r27f 801 3701 *);
   (Simple (Arr (3100940840571417 # 8388608) (54923705676503 # 70368744177664) (7108836345860115 # 67108864)), [Conc 8; Conc 6]) (* r27b 803 3702 *);
   (Simple (Arr (5757000000 # 1) ((-5980780305148019) # 9007199254740992) (5962493502632755 # 4294967296)), [Conc 5; Conc 10]) (* r28f 805 3703 *);
   (Simple (Arr (30336965293048132 # 1) ((-1090145378033647) # 562949953421312) (7301874993156107 # 67108864)), [Conc 8; Conc 6]) (* r28b 807 3704 *);
   (Simple (Arr (157 # 1) (4908923593833841 # 2251799813685248) (75060960 # 1)), [Conc 5; Conc 17]) (* r29f 809 3705 *);
   (Simple (Arr (5636488498746009 # 34359738368) (117284483576165 # 70368744177664) (2804013702897785 # 8388608)), [Conc 10; Conc 6]) (* r29b 811 3706 *);
   (Simple (Arr (570000000 # 1) (5944751508129055 # 9007199254740992) (62216080 # 1)), [Conc 25; Third 10]) (* r30f 813 3707 *);
   (Simple (Arr (954698814155099 # 17179869184) (552589506658349 # 562949953421312) ((-7940290882971559) # 2147483648)), [Conc 5; Conc 8; Third 10]) (* r30b 815 3708 *);
   (Simple (Arr (7580000000 # 1) (0 # 1) (1715440 # 1)), [Conc 25; Conc 4]) (* r31f 817 3709 *);
   (Simple (Arr (568848222970805 # 524288) (86485549539313 # 281474976710656) (4722578090461937 # 33554432)), [Conc 17; Conc 5]) (* r31b 818 3710 *);
   (Simple (Arr (73400000000 # 1) (0 # 1) (0 # 1)), [Conc 25; Conc 8]) (* r32f 820 3711 *);
   (Simple (Arr (7208407205392041 # 4194304) (47025060645297 # 70368744177664) (1540172418427591 # 4194304)), [Conc 3; Conc 5]) (* r32b 821 3712 *);
   (Simple (Arr (30200000000 # 1) (0 # 1) (0 # 1)), [Conc 25; Conc 9]) (* r33f 823 3713 *);
   (Simple (Arr (3482579139564287 # 8388608) (89358441590419 # 140737488355328) (3031261501359871 # 8388608)), [Conc 10; Conc 5]) (* r33b 824 3714 *);
   (Simple (Arr (30000000000 # 1) (0 # 1) (0 # 1)), [Conc 25; Conc 9]) (* r34f 826 3715 *);
   (Simple (Arr (8692832319342833 # 4) ((-89728210650059) # 140737488355328) (7864700760764115 # 16777216)), [Conc 8; Conc 6]) (* r34b 827 3716 *);
   (Simple (Arr (102000000000 # 1) (0 # 1) (0 # 1)), [Conc 25; Conc 10]) (* r35f 829 3717 *);
   (Simple (Arr (1693477201512933 # 65536) (19936544556895 # 35184372088832) (3606958709724487 # 8388608)), [Conc 7; Conc 5]) (* r35b 830 3718 *);
   (Simple (Arr (30000000000 # 1) (0 # 1) (0 # 1)), [Conc 25; Conc 17]) (* r36 832 3719 *);
   (Simple (Arr (3000000000 # 1) (0 # 1) (0 # 1)), [Conc 25; Conc 25]) (* r37 833 3720 *);
   (Simple (Arr (26500000000 # 1) (0 # 1) (0 # 1)), [Conc 25; Conc 11]) (* r38f 834 3721 *);
   (Simple (Arr (4598003465545393 # 4096) (21338971300239 # 140737488355328) (394365448106665 # 1048576)), [Conc 5; Conc 2]) (* r38b 835 3722 *);
   (Simple (Arr (8070000000000 # 1) (0 # 1) (7499726937128961 # 33554432)), [Conc 12; Conc 4]) (* r39f 837 3723 *);
   (Simple (Arr (5807807557701433 # 32768) ((-1027167324983) # 70368744177664) (490395234549377 # 8388608)), [Conc 17; Conc 25]) (* r39b 838 3724 *);
   (Simple (Arr (120000000 # 1) (0 # 1) ((-4941789370777601) # 1073741824)), [Conc 25; Conc 4]) (* r40f 840 3725 *);
   (Simple (Arr (15514809778454812 # 1) ((-334065150591279) # 281474976710656) (2869905770701029 # 16777216)), [Conc 26]) (* r40b 841 3726 *);
   (Simple (Arr (1990000000 # 1) (0 # 1) (48785440 # 1)), [Conc 12; Conc 26]) (* r41f 843 3727 *);
   (Simple (Arr (6377677263828265 # 8192) ((-1122849418598937) # 1125899906842624) (420909929838693 # 8388608)), [Conc 33; Conc 25]) (* r41b 844 3728 *);
   (Simple (Arr (20000000000 # 1) (0 # 1) (0 # 1)), [Conc 58; Conc 10]) (* r42f 846 3729 *);
   (Simple (Arr (2985148087296451411968 # 1) ((-568023725312547) # 281474976710656) (1634762136741225 # 8388608)), [Conc 33]) (* r42b 847 3730 *);
   (Simple (Arr (75000000000 # 1) (0 # 1) (8142721122304001 # 67108864)), [Conc 8; Conc 6]) (* r43f 849 3731 *);
   (Simple (Arr (5816483760213225 # 512) (22622271194539 # 562949953421312) (315704724992411 # 4194304)), [Conc 58]) (* r43b 850 3732 *);
   (Simple (Arr (18000000000 # 1) (0 # 1) (0 # 1)), [Conc 25; Conc 25]) (* r44f 852 3733 *);
   (Simple (Arr (7688134462398011 # 65536) (22648554709985 # 70368744177664) (1275395434320453 # 4194304)), [Conc 5; Conc 12]) (* r44b 853 3734 *);
   (Simple (Arr (5930000000 # 1) (1 # 2) ((-7727161561579521) # 2147483648)), [Conc 43; Conc 7]) (* r45f 855 3735 *);
   (Simple (Arr (2630949874962129 # 524288) (36923687949615 # 70368744177664) (6442827977928115 # 16777216)), [Conc 7; Conc 10]) (* r45b 857 3736 *);
   (Simple (Arr (2950000000 # 1) (1 # 2) ((-1857696) # 1)), [Conc 43; Conc 3]) (* r46f 859 3737 *);
   (Simple (Arr (5235279683733361 # 2097152) (73847375899247 # 140737488355328) (6472029460573613 # 16777216)), [Conc 3; Conc 10]) (* r46b 860 3738 *);
   (Simple (Arr (108000000 # 1) (1 # 2) ((-5196528) # 1)), [Conc 43; Conc 0]) (* r47f 862 3739 *);
   (Simple (Arr (6133263249823249 # 67108864) (18461843974809 # 35184372088832) (6416013154921899 # 16777216)), [Conc 0; Conc 10]) (* r47b 863 3740 *);
   (Simple (Arr (6010000000 # 1) (1 # 2) ((-6864594689589249) # 2147483648)), [Conc 43; Conc 10]) (* r48f 865 3741 *);
   (Simple (Arr (166652706034437 # 32768) (18461843974801 # 35184372088832) (806195847701945 # 2097152)), [Conc 10; Conc 10]) (* r48b 867 3742 *);
   (Simple (Arr (1310000000 # 1) (1 # 2) ((-6002027817598977) # 8589934592)), [Conc 43; Conc 8]) (* r49f 869 3743 *);
   (Simple (Arr (4649638227591027 # 4194304) (36923687949617 # 70368744177664) (811434214630839 # 2097152)), [Conc 8; Conc 10]) (* r49b 870 3744 *);
   (Simple (Arr (1690000000 # 1) (0 # 1) (17300840 # 1)), [Conc 43; Conc 75]) (* r50f 872 3745 *);
   (Simple (Arr (5998388247822345 # 4194304) (1739315860799 # 70368744177664) (3396728178644707 # 8388608)), [Conc 75; Conc 10]) (* r50b 873 3746 *);
   (Simple (Arr (1450000 # 1) (0 # 1) (0 # 1)), [Conc 43]) (* r51f 875 3747 *);
   (Simple (Arr (5270063236889343 # 4294967296) (1739315860789 # 70368744177664) (406449776726747 # 1048576)), [Conc 10]) (* r51b 876 3748 *);
   (Simple (Arr (2100000000 # 1) (1 # 2) ((-8589728433569793) # 4294967296)), [Conc 43; Conc 4]) (* r52f 878 3749 *);
   (Simple (Arr (7453618532771879 # 4194304) (4615460993703 # 8796093022208) (1617410700233577 # 4194304)), [Conc 4; Conc 10]) (* r52b 879 3750 *);
   (Simple (Arr (2750000000 # 1) (1 # 2) ((-8697549292568577) # 2147483648)), [Conc 43; Conc 6]) (* r53f 881 3751 *);
   (Simple (Arr (4880345467894271 # 2097152) (36923687949605 # 70368744177664) (6435246823779777 # 16777216)), [Conc 6; Conc 10]) (* r53b 882 3752 *);
   (Simple (Arr (3230000000 # 1) (1 # 2) ((-3292808) # 1)), [Conc 43; Conc 5]) (* r54f 884 3753 *);
   (Simple (Arr (5732187585920109 # 2097152) (73847375899235 # 140737488355328) (6447952276565423 # 16777216)), [Conc 5; Conc 10]) (* r54b 885 3754 *);
   (Simple (Arr (3360000000 # 1) (1 # 2) ((-2656840) # 1)), [Conc 43; Conc 2]) (* r55f 887 3755 *);
   (Simple (Arr (1490723706555757 # 524288) (73847375899229 # 140737488355328) (6458622049070521 # 16777216)), [Conc 2; Conc 10]) (* r55b 888 3756 *);
   (Simple (Arr (40400000000 # 1) (0 # 1) (0 # 1)), [Conc 36; Conc 4]) (* r56f 890 3757 *);
   (Simple (Arr (3467701518245031 # 524288) (50332992725931 # 140737488355328) (4691736621820995 # 16777216)), [Conc 43; Conc 5]) (* r56b 891 3758 *);
   (Falloff (Arr (1350000000000000000 # 1) ((-5787125521171087) # 2251799813685248) (5962200 # 1)) (Arr (1090000000 # 1) (1080863910568919 # 2251799813685248) ((-4672237223280641) # 4294967296)) [Decay (244995819728955 # 1125899906842624) (271 # 1); Decay (880904087113669 # 1125899906842624) (2755 # 1); Grow (1 # 1) (6570 # 1)] 11, [Conc 25; Conc 8]) (* r57f 900 3759 *);
   (Falloff (Arr (90246554122788469211136 # 1) ((-361658870003191) # 140737488355328) (788432123734195 # 2097152)) (Arr (4663407122670907 # 64) (540723755844475 # 1125899906842624) (773647118248115 # 2097152)) [Decay (244995819728955 # 1125899906842624) (271 # 1); Decay (880904087113669 # 1125899906842624) (2755 # 1); Grow (1 # 1) (6570 # 1)] 11, [Conc 12]) (* r57b 905 3760 *);
   (Falloff (Arr (5070000000000000524288 # 1) ((-1925288840700887) # 562949953421312) (352912032 # 1)) (Arr (43000 # 1) (3 # 2) (333046400 # 1)) [Decay (612489549322387 # 9007199254740992) (197 # 1); Decay (8394709705418605 # 9007199254740992) (1540 # 1); Grow (1 # 1) (10300 # 1)] 12, [Conc 5; Conc 3]) (* r58f 912 3761 *);
   (Falloff (Arr (14475096628250889687675174912 # 1) ((-575335856395253) # 140737488355328) (5967619588791137 # 16777216)) (Arr (4022832061444691 # 32768) (468370345251843 # 562949953421312) (5634329589750625 # 16777216)) [Decay (612489549322387 # 9007199254740992) (197 # 1); Decay (8394709705418605 # 9007199254740992) (1540 # 1); Grow (1 # 1) (10300 # 1)] 12, [Conc 12]) (* r58b 917 3762 *);
   (Simple (Arr (78200 # 1) (1835216848153477 # 1125899906842624) ((-4739625260154881) # 1073741824)), [Conc 12; Conc 10]) (* r59f 918 3763 *);
   (Simple (Arr (1671118708505665 # 549755813888) (527702349653541 # 281474976710656) (8153116149909021 # 67108864)), [Conc 7; Conc 25]) (* r59b 920 3764 *);
   (Simple (Arr (57400 # 1) (4278419646001971 # 2251799813685248) (6154774034513921 # 536870912)), [Conc 12; Conc 8]) (* r60f 922 3765 *);
   (Simple (Arr (3627826547734991 # 17592186044416) (1264616958983023 # 562949953421312) (5005778500028517 # 67108864)), [Conc 3; Conc 25]) (* r60b 924 3766 *);
   (Simple (Arr (6260000 # 1) (2589569785738035 # 2251799813685248) (9455840 # 1)), [Conc 12; Conc 9]) (* r61f 926 3767 *);
   (Simple (Arr (3629524939176013 # 274877906944) (411818887558171 # 281474976710656) (2239167871158771 # 33554432)), [Conc 10; Conc 25]) (* r61b 928 3768 *);
   (Simple (Arr (5519611703305279 # 144115188075855872) (7566047373982433 # 2251799813685248) (18041408 # 1)), [Conc 12; Conc 11]) (* r62f 930 3769 *);
   (Simple (Arr (8968988624877055 # 36028797018963968) (224459911377095 # 70368744177664) (6043800125539905 # 67108864)), [Conc 2; Conc 25]) (* r62b 932 3770 *);
   (Simple (Arr (5291729562160333 # 281474976710656) (3039929748475085 # 1125899906842624) (48199680 # 1)), [Conc 12; Conc 17]) (* r63f 934 3771 *);
   (Simple (Arr (1371836158087647 # 70368744177664) (1374434870532647 # 562949953421312) (92700016931613 # 2097152)), [Conc 18; Conc 25]) (* r63b 936 3772 *);
   (Simple (Arr (4500000000000 # 1) ((-2476979795053773) # 2251799813685248) (0 # 1)), [Conc 12; Conc 10]) (* r64f 938 3773 *);
   (Simple (Arr (2635463298615298490368 # 1) ((-1328646999021455) # 562949953421312) (906040298476193 # 8388608)), [Conc 28]) (* r64b 939 3774 *);
   (Simple (Arr (100000000000000 # 1) (0 # 1) (8367347911884801 # 134217728)), [Conc 28]) (* r65f 941 3775 *);
   (Simple (Arr (1132155757594841 # 2097152) (926163714997461 # 1125899906842624) (6019519034580871 # 134217728)), [Conc 8; Conc 27]) (* r65b 942 3776 *);
   (Simple (Arr (2450000000000 # 1) (0 # 1) (253006480 # 1)), [Conc 27]) (* r66f 944 3777 *);
   (Simple (Arr (807211949582513 # 274877906944) (282579502695767 # 281474976710656) (7465263847762285 # 33554432)), [Conc 7; Conc 5]) (* r66b 945 3778 *);
   (Simple (Arr (2950000000 # 1) (0 # 1) (6811807394037761 # 33554432)), [Conc 27]) (* r67f 947 3779 *);
   (Simple (Arr (1849113415983187 # 1073741824) ((-23492957829639) # 140737488355328) (7285482537692093 # 33554432)), [Conc 3; Conc 6]) (* r67b 948 3780 *);
   (Simple (Arr (35000000 # 1) (0 # 1) ((-13702600) # 1)), [Conc 58; Conc 17]) (* r68f 950 3781 *);
   (Simple (Arr (4345132632500957 # 67108864) (68644736552437 # 140737488355328) (8268626529424471 # 33554432)), [Conc 4; Conc 27]) (* r68b 951 3782 *);
   (Simple (Arr (5761440929546239 # 2199023255552) (4638707616191611 # 2251799813685248) (8230325570240513 # 2147483648)), [Conc 27; Conc 10]) (* r69 953 3783 *);
   (Simple (Arr (18500 # 1) (6800435437329449 # 4503599627370496) ((-4321819431534593) # 1073741824)), [Conc 27; Conc 10]) (* r70 955 3784 *);
   (Simple (Arr (4240 # 1) (4728779608739021 # 2251799813685248) (20367712 # 1)), [Conc 27; Conc 8]) (* r71 957 3785 *);
   (Simple (Arr (60300000000 # 1) ((-3152519739159347) # 9007199254740992) (12501792 # 1)), [Conc 27; Conc 8]) (* r72 959 3786 *);
   (Simple (Arr (3771848557197643 # 9671406556917033397649408) (6530219459687219 # 1125899906842624) (4941789370777601 # 536870912)), [Conc 27; Conc 11]) (* r73 961 3787 *);
   (Simple (Arr (2400000000 # 1) (0 # 1) (41840000 # 1)), [Conc 58; Conc 18]) (* r74f 963 3788 *);
   (Simple (Arr (6310596133420075 # 67108864) (51486451414247 # 70368744177664) (2364146769686011 # 16777216)), [Conc 17; Conc 27]) (* r74b 964 3789 *);
   (Simple (Arr (1000000000 # 1) (0 # 1) (49873280 # 1)), [Conc 27; Conc 17]) (* r75 966 3790 *);
   (Simple (Arr (1770000000000000 # 1) ((-4278419646001971) # 2251799813685248) (12447400 # 1)), [Conc 27; Conc 9]) (* r76 967 3791 *);
   (Simple (Arr (5600000000 # 1) (0 # 1) (56902400 # 1)), [Conc 12; Conc 58]) (* r77f 969 3792 *);
   (Simple (Arr (3817260309839901 # 16777216) (133180803804447 # 281474976710656) (2549795600926407 # 16777216)), [Conc 25; Conc 27]) (* r77b 970 3793 *);
   (Falloff (Arr (18670000000000000524288 # 1) ((-3) # 1) (6825004217925633 # 67108864)) (Arr (68000000000000 # 1) (0 # 1) (7348103854161921 # 67108864)) [Decay (900719925474099 # 9007199254740992) (2500 # 1); Decay (8106479329266893 # 9007199254740992) (1300 # 1); Grow (1 # 1) (999999999999999967336168804116691273849533185806555472917961779471295845921727862608739868455469056 # 1)] 13, [Conc 20]) (* r78f 978 3794 *);
   (Falloff (Arr (10459181717281642 # 1) ((-594322602660315) # 281474976710656) (3145490260560065 # 268435456)) (Arr (5112957539615547 # 134217728) (250102327471653 # 281474976710656) (5237888805505219 # 268435456)) [Decay (900719925474099 # 9007199254740992) (2500 # 1); Decay (8106479329266893 # 9007199254740992) (1300 # 1); Grow (1 # 1) (999999999999999967336168804116691273849533185806555472917961779471295845921727862608739868455469056 # 1)] 13, [Conc 8; Conc 12]) (* r78b 983 3795 *);
   (Simple (Arr (4657614897230345 # 10633823966279326983230456482242756608) (19 # 2) ((-23016184) # 1)), [Conc 20; Conc 4]) (* r79f 984 3796 *);
   (Simple (Arr (7845714991253433 # 21778071482940061661655974875633165533184) (5840157774123663 # 562949953421312) (1542549469512245 # 16777216)), [Conc 17; Conc 12]) (* r79b 986 3797 *);
   (Simple (Arr (662000000 # 1) (0 # 1) (9598096 # 1)), [Conc 12; Conc 20]) (* r80f 988 3798 *);
   (Simple (Arr (1403610363273011 # 1073741824) (382769148187169 # 562949953421312) (1302879270493293 # 16777216)), [Conc 25; Conc 21]) (* r80b 989 3799 *);
   (Simple (Arr (4150517416584649 # 288230376151711744) (6980579422424269 # 2251799813685248) (29016040 # 1)), [Conc 11; Conc 21]) (* r81f 991 3800 *);
   (Simple (Arr (416925575254595 # 8796093022208) (2533086309880317 # 1125899906842624) (8851581796111207 # 268435456)), [Conc 20; Conc 2]) (* r81b 993 3801 *);
   (Simple (Arr (12000000000 # 1) (0 # 1) (0 # 1)), [Conc 20; Conc 11]) (* r82f 995 3802 *);
   (Simple (Arr (6125708732977775 # 2097152) (101129500685933 # 140737488355328) (5906035391866701 # 16777216)), [Conc 2; Conc 12]) (* r82b 996 3803 *);
   (Simple (Arr (20000000000 # 1) (0 # 1) (0 # 1)), [Conc 20; Conc 8]) (* r83f 998 3804 *);
   (Simple (Arr (5778630486612745 # 2147483648) (173840650676295 # 140737488355328) (5756877895870429 # 16777216)), [Conc 3; Conc 12]) (* r83b 999 3805 *);
   (Simple (Arr (301000000 # 1) (0 # 1) (0 # 1)), [Conc 20; Conc 17]) (* r84f 1001 3806 *);
   (Simple (Arr (6275541644308573 # 536870912) (22176284469845 # 35184372088832) (2315356826201927 # 8388608)), [Conc 18; Conc 12]) (* r84b 1002 3807 *);
   (Falloff (Arr (127000000000000004848615424 # 1) ((-678354693872681) # 140737488355328) (7334064679813121 # 268435456)) (Arr (540000000 # 1) (8178536923304821 # 18014398509481984) (15062400 # 1)) [Decay (2533725150358641 # 9007199254740992) (103 # 1); Decay (6473474104382351 # 9007199254740992) (1291 # 1); Grow (1 # 1) (4160 # 1)] 14, [Conc 12; Conc 8]) (* r85f 1011 3808 *);
   (Falloff (Arr (995825162892825170593041088512 # 1) ((-2911416950466481) # 562949953421312) (1272621277949051 # 8388608)) (Arr (4335838441521391 # 1024) (1842595324080597 # 18014398509481984) (1169784325844091 # 8388608)) [Decay (2533725150358641 # 9007199254740992) (103 # 1); Decay (6473474104382351 # 9007199254740992) (1291 # 1); Grow (1 # 1) (4160 # 1)] 14, [Conc 30]) (* r85b 1016 3809 *);
   (Simple (Arr (1510000000000 # 1) ((-1) # 1) (0 # 1)), [Conc 30; Conc 4]) (* r86f 1017 3810 *);
   (Simple (Arr (4632368706929085 # 16384) ((-186511608383345) # 281474976710656) (1351491359762711 # 16777216)), [Conc 17; Conc 12]) (* r86b 1018 3811 *);
   (Simple (Arr (241000000000 # 1) (0 # 1) (20991128 # 1)), [Conc 30; Conc 4]) (* r87f 1020 3812 *);
   (Simple (Arr (5914706534427767 # 131072) (189926736654733 # 562949953421312) (1703664048302379 # 16777216)), [Conc 17; Conc 12]) (* r87b 1021 3813 *);
   (Simple (Arr (6000000000 # 1) (0 # 1) (0 # 1)), [Conc 30; Conc 8]) (* r88f 1023 3814 *);
   (Simple (Arr (1541606200145853 # 8388608) (98289030684599 # 140737488355328) (5179672295657143 # 16777216)), [Conc 3; Conc 12]) (* r88b 1024 3815 *);
   (Simple (Arr (12000000000 # 1) (0 # 1) (0 # 1)), [Conc 30; Conc 17]) (* r89f 1026 3816 *);
   (Simple (Arr (6952536173638179 # 65536) (3288379471923 # 35184372088832) (8107016104381135 # 33554432)), [Conc 18; Conc 12]) (* r89b 1027 3817 *);
   (Simple (Arr (180000000000 # 1) (0 # 1) (0 # 1)), [Conc 30; Conc 25]) (* r90f 1029 3818 *);
   (Simple (Arr (392852892519855 # 256) (49536018813969 # 140737488355328) (1030141089807149 # 4194304)), [Conc 12; Conc 12]) (* r90b 1030 3819 *);
   (Simple (Arr (24000000000 # 1) (0 # 1) (0 # 1)), [Conc 30; Conc 20]) (* r91f 1032 3820 *);
   (Simple (Arr (6778558198180439 # 16777216) (145228305860753 # 140737488355328) (2631207149970569 # 8388608)), [Conc 21; Conc 12]) (* r91b 1033 3821 *);
   (Simple (Arr (2710604025723617 # 281474976710656) (6530219459687219 # 2251799813685248) (7362143028510721 # 134217728)), [Conc 21; Conc 25]) (* r92f 1035 3822 *);
   (Simple (Arr (3014950194286205 # 140737488355328) (3103984393403507 # 1125899906842624) (1422494152258505 # 67108864)), [Conc 12; Conc 30]) (* r92b 1037 3823 *);
   (Simple (Arr (24000000000 # 1) (0 # 1) (0 # 1)), [Conc 10; Conc 30]) (* r93f 1039 3824 *);
   (Simple (Arr (4169935729777997 # 524288) (83985087621581 # 140737488355328) (1558225010348939 # 4194304)), [Conc 12; Conc 7]) (* r93b 1040 3825 *);
   (Simple (Arr (42000000000 # 1) (0 # 1) (0 # 1)), [Conc 9; Conc 30]) (* r94f 1042 3826 *);
   (Simple (Arr (6335666255689743 # 8388608) (93597350984423 # 140737488355328) (2540752812333263 # 8388608)), [Conc 12; Conc 10]) (* r94b 1043 3827 *);
   (Simple (Arr (3000000000 # 1) (0 # 1) (0 # 1)), [Conc 30; Conc 30]) (* r95f 1045 3828 *);
   (Simple (Arr (3013940001461479 # 262144) (34838342934533 # 70368744177664) (4685208699727849 # 16777216)), [Conc 21; Conc 12]) (* r95b 1046 3829 *);
   (Simple (Arr (10000000000 # 1) (0 # 1) (0 # 1)), [Conc 30; Conc 17]) (* r96f 1048 3830 *);
   (Simple (Arr (1213216328238651 # 8192) ((-21003074042467) # 140737488355328) (4543505584412859 # 33554432)), [Conc 10; Conc 28]) (* r96b 1049 3831 *);
   (Simple (Arr (150000000 # 1) (0 # 1) (49789600 # 1)), [Conc 12; Conc 17]) (* r97f 1051 3832 *);
   (Simple (Arr (13213060685091462709248 # 1) ((-820843980833069) # 281474976710656) (1994891004304563 # 33554432)), [Conc 73]) (* r97b 1052 3833 *);
   (Simple (Arr (300000000000 # 1) (0 # 1) (35982400 # 1)), [Conc 73]) (* r98f 1054 3834 *);
   (Simple (Arr (5459433756015939 # 33554432) (606443128190755 # 562949953421312) (7309378626682707 # 67108864)), [Conc 46]) (* r98b 1055 3835 *);
   (Simple (Arr (35000000 # 1) (0 # 1) ((-13702600) # 1)), [Conc 46; Conc 17]) (* r99f 1057 3836 *);
   (Simple (Arr (6870853257196329 # 32768) ((-260738482892989) # 281474976710656) (4794219632156811 # 33554432)), [Conc 4; Conc 45]) (* r99b 1058 3837 *);
   (Simple (Arr (10000000000 # 1) (0 # 1) (0 # 1)), [Conc 28; Conc 10]) (* r100f 1060 3838 *);
   (Simple (Arr (36185889147276587171840 # 1) ((-641391383218659) # 281474976710656) (6185029303334389 # 33554432)), [Conc 45]) (* r100b 1061 3839 *);
   (Falloff (Arr (15000000000000001060141952447820087689216 # 1) ((-7875669848364155) # 1125899906842624) (6878647903112397 # 16777216)) (Arr (2084000000000000000 # 1) ((-2769713770832855) # 4503599627370496) (6495968088712807 # 16777216)) [Decay (830238591305751 # 562949953421312) (35580 # 1); Decay ((-4276618206151023) # 9007199254740992) (1116 # 1); Grow (1 # 1) (9023 # 1)] 15, [Conc 21]) (* r101f 1070 3840 *);
   (Falloff (Arr (71389279891959675986154071523328 # 1) ((-1746486624449021) # 281474976710656) (5369174000215431 # 268435456)) (Arr (650009026209793 # 65536) (789179631439429 # 4503599627370496) ((-3014812120712097) # 1073741824)) [Decay (830238591305751 # 562949953421312) (35580 # 1); Decay ((-4276618206151023) # 9007199254740992) (1116 # 1); Grow (1 # 1) (9023 # 1)] 15, [Conc 10; Conc 11]) (* r101b 1076 3841 *);
   (Falloff (Arr (142999999999999979338718553597162586915209216 # 1) ((-2315694633398567) # 281474976710656) (6978670000760423 # 16777216)) (Arr (3121000000000000000 # 1) ((-2290080410517897) # 2251799813685248) (383723008 # 1)) [Decay ((-869757678035927) # 562949953421312) (3290 # 1); Decay (1432707631457239 # 562949953421312) (47320 # 1); Grow (1 # 1) (47110 # 1)] 16, [Conc 21]) (* r102f 1085 3842 *);
   (Falloff (Arr (24280711325751256648923949222068224 # 1) ((-1960389181247555) # 281474976710656) (2869157414050333 # 134217728)) (Arr (8890762986023525 # 16777216) (552363206690199 # 2251799813685248) ((-2915544553894455) # 268435456)) [Decay ((-869757678035927) # 562949953421312) (3290 # 1); Decay (1432707631457239 # 562949953421312) (47320 # 1); Grow (1 # 1) (47110 # 1)] 16, [Conc 7; Conc 72]) (* r102b 1091 3843 *);
   (Falloff (Arr (3389999999999999615786358332058685669376 # 1) ((-254875591411499) # 35184372088832) (1846683160595661 # 4194304)) (Arr (568966762523479 # 72057594037927936) (1418070932668285 # 281474976710656) (2964631388474573 # 8388608)) [Decay (2635661313174405 # 35184372088832) (37050 # 1); Decay ((-2600476941085573) # 35184372088832) (41500 # 1); Grow (1 # 1) (5220 # 1)] 17, [Conc 21]) (* r103f 1100 3844 *);
   (Falloff (Arr (112809817671629543019262233825771520 # 1) ((-4158718031081537) # 562949953421312) (4917283433962645 # 134217728)) (Arr (620417487889433 # 2361183241434822606848) (2755433296839017 # 562949953421312) ((-6742475489505341) # 134217728)) [Decay (2635661313174405 # 35184372088832) (37050 # 1); Decay ((-2600476941085573) # 35184372088832) (41500 # 1); Grow (1 # 1) (5220 # 1)] 17, [Conc 8; Conc 30]) (* r103b 1106 3845 *);
   (Simple (Arr (307 # 1) (2871044762448691 # 1125899906842624) (22760960 # 1)), [Conc 21; Conc 8]) (* r104f 1108 3846 *);
   (Simple (Arr (5524933131786771 # 2251799813685248) (3099943520973181 # 1125899906842624) (7010633105733395 # 134217728)), [Conc 3; Conc 30]) (* r104b 1110 3847 *);
   (Simple (Arr (7001690045677567 # 35184372088832) (5764607523034235 # 2251799813685248) (5784139831705601 # 134217728)), [Conc 21; Conc 8]) (* r105f 1112 3848 *);
   (Simple (Arr (3184703434096051 # 8796093022208) (1253394780054163 # 562949953421312) (2561101898716979 # 67108864)), [Conc 3; Conc 20]) (* r105b 1114 3849 *);
   (Simple (Arr (6825768185233407 # 17592186044416) (5 # 2) (6918505119088641 # 536870912)), [Conc 21; Conc 9]) (* r106f 1116 3850 *);
   (Simple (Arr (8199194246818181 # 4503599627370496) (3006115088029565 # 1125899906842624) (4900001679281637 # 134217728)), [Conc 10; Conc 30]) (* r106b 1118 3851 *);
   (Simple (Arr (2167357320672051 # 70368744177664) (5967269506265907 # 2251799813685248) ((-906032155774157) # 268435456)), [Conc 21; Conc 10]) (* r107f 1120 3852 *);
   (Simple (Arr (5997293062429211 # 2251799813685248) (774525491788225 # 281474976710656) (2982128663864067 # 33554432)), [Conc 7; Conc 30]) (* r107b 1122 3853 *);
   (Simple (Arr (5404319552844595 # 36028797018963968) (6822953435466301 # 2251799813685248) ((-6855609618006017) # 2147483648)), [Conc 21; Conc 10]) (* r108f 1124 3854 *);
   (Simple (Arr (6649102814995711 # 2251799813685248) (1460765485909773 # 562949953421312) (7335410330511717 # 134217728)), [Conc 7; Conc 20]) (* r108b 1126 3855 *);
   (Simple (Arr (20500000000 # 1) (0 # 1) (187861600 # 1)), [Conc 21; Conc 4]) (* r109f 1128 3856 *);
   (Simple (Arr (4200940905318113 # 4194304) ((-355120027281895) # 2251799813685248) ((-5821526357101041) # 536870912)), [Conc 17; Conc 30]) (* r109b 1129 3857 *);
   (Simple (Arr (6079859496950169 # 562949953421312) (2871044762448691 # 1125899906842624) (5913300235714561 # 134217728)), [Conc 21; Conc 17]) (* r110f 1131 3858 *);
   (Simple (Arr (7012489144266213 # 281474976710656) (1209429709299095 # 562949953421312) (3438780221666351 # 536870912)), [Conc 18; Conc 30]) (* r110b 1133 3859 *);
   (Simple (Arr (2298637249809901 # 72057594037927936) (1784551352345559 # 562949953421312) (8055116674367489 # 268435456)), [Conc 21; Conc 11]) (* r111f 1135 3860 *);
   (Simple (Arr (4154506567178591 # 9007199254740992) (1608156131646425 # 562949953421312) (4588263536294251 # 67108864)), [Conc 2; Conc 30]) (* r111b 1137 3861 *);
   (Simple (Arr (300000000 # 1) (0 # 1) (17045616 # 1)), [Conc 20; Conc 21]) (* r112f 1139 3862 *);
   (Simple (Arr (5659966771296879 # 4294967296) (604412959933703 # 1125899906842624) (1726367163396715 # 33554432)), [Conc 21; Conc 30]) (* r112b 1140 3863 *);
   (Simple (Arr (60300000000 # 1) (0 # 1) (0 # 1)), [Conc 20; Conc 20]) (* r113f 1142 3864 *);
   (Simple (Arr (4788022020170869 # 1073741824) (27597490731557 # 17592186044416) (5839619900154415 # 16777216)), [Conc 12; Conc 21]) (* r113b 1143 3865 *);
   (Falloff (Arr (2476999999999999730272698368 # 1) ((-2679641778285445) # 562949953421312) (5480893665771521 # 536870912)) (Arr (12700000000000 # 1) ((-5674535530486825) # 9007199254740992) (6882564832755713 # 4294967296)) [Decay (1954562238278795 # 9007199254740992) (74 # 1); Decay (7052637016462197 # 9007199254740992) (2941 # 1); Grow (1 # 1) (6964 # 1)] 18, [Conc 11; Conc 8]) (* r114f 1152 3866 *);
   (Falloff (Arr (1076261497753539729755452158771200 # 1) ((-693832107621091) # 140737488355328) (3793485616059277 # 8388608)) (Arr (5518175624331834368 # 1) ((-7205521965669529) # 9007199254740992) (3721289161970573 # 8388608)) [Decay (1954562238278795 # 9007199254740992) (74 # 1); Decay (7052637016462197 # 9007199254740992) (2941 # 1); Grow (1 # 1) (6964 # 1)] 18, [Conc 2]) (* r114b 1158 3867 *);
   (Simple (Arr (614 # 1) (5 # 2) (40112008 # 1)), [Conc 2; Conc 8]) (* r115f 1160 3868 *);
   (Simple (Arr (1528438683891391 # 4503599627370496) (849109741757471 # 281474976710656) (8380965222615759 # 268435456)), [Conc 3; Conc 11]) (* r115b 1161 3869 *);
   (Simple (Arr (4102497785557811 # 70368744177664) (5854679515581645 # 2251799813685248) (9162960 # 1)), [Conc 2; Conc 10]) (* r116f 1163 3870 *);
   (Simple (Arr (24534891111527 # 70368744177664) (848649353302375 # 281474976710656) (8462393670893767 # 134217728)), [Conc 7; Conc 11]) (* r116b 1165 3871 *);
   (Simple (Arr (1020000 # 1) (3 # 2) (35982400 # 1)), [Conc 2; Conc 9]) (* r117f 1167 3872 *);
   (Simple (Arr (5823185965618663 # 17592186044416) (2233005622585839 # 1125899906842624) (1425441320046127 # 67108864)), [Conc 10; Conc 11]) (* r117b 1168 3873 *);
   (Simple (Arr (2442752437885757 # 144115188075855872) (2105432825795707 # 562949953421312) (87905840 # 1)), [Conc 2; Conc 17]) (* r118f 1170 3874 *);
   (Simple (Arr (6235468592694399 # 2305843009213693952) (8222941498279915 # 2251799813685248) (3191896414058681 # 268435456)), [Conc 18; Conc 11]) (* r118b 1172 3875 *);
   (Simple (Arr (2460 # 1) (2 # 1) (34601680 # 1)), [Conc 2; Conc 35]) (* r119f 1174 3876 *);
   (Simple (Arr (786072396663167 # 1099511627776) (2222064566514439 # 1125899906842624) (7501126574367863 # 134217728)), [Conc 11; Conc 11]) (* r119b 1175 3877 *);
   (Plog [((1000 # 1), (Arr (493600000000 # 1) ((-669) # 1000) ((-1865230) # 1))); ((10000 # 1), (Arr (1207000000000 # 1) ((-389) # 500) ((-734710) # 1))); ((100000 # 1), (Arr (528200000000000 # 1) ((-759) # 500) (7414050 # 1))); ((1000000 # 1), (Arr (478800000000000000000 # 1) ((-631) # 200) (29300600 # 1))); ((10000000 # 1), (Arr (84330000000000000 # 1) ((-981) # 500) (34492900 # 1)))], [Conc 11; Conc 10]) (* r120f 1198 3878 *);
   (Plog [((1000 # 1), (Arr (17610000000 # 1) ((-39387) # 200000) ((-6451850) # 1))); ((10000 # 1), (Arr (43061700000 # 1) ((-61187) # 200000) ((-5321340) # 1))); ((100000 # 1), (Arr (18844400000000 # 1) ((-104593) # 100000) (2827420 # 1))); ((1000000 # 1), (Arr (17082000000000000000 # 1) ((-268293) # 100000) (24713900 # 1))); ((10000000 # 1), (Arr (3008610000000000 # 1) ((-148993) # 100000) (29906300 # 1)))], [Conc 7; Conc 72]) (* r120b 1221 3879 *);
   (Plog [((1000 # 1), (Arr (1751 # 5) (1441 # 1000) ((-13572900) # 1))); ((10000 # 1), (Arr (4427 # 5) (1327 # 1000) ((-12447400) # 1))); ((100000 # 1), (Arr (16500 # 1) (973 # 1000) ((-8409840) # 1))); ((1000000 # 1), (Arr (5374000 # 1) (287 # 1000) (1171520 # 1))); ((10000000 # 1), (Arr (9494000000000000 # 1) ((-2199) # 1000) (40873500 # 1)))], [Conc 11; Conc 10]) (* r121f 1244 3880 *);
   (Plog [((1000 # 1), (Arr (749987 # 10) (120579 # 100000) (281510000 # 1))); ((10000 # 1), (Arr (189617 # 1) (109179 # 100000) (282636000 # 1))); ((100000 # 1), (Arr (3533640 # 1) (147557 # 200000) (286673000 # 1))); ((1000000 # 1), (Arr (1150890000 # 1) (517853 # 10000000) (296255000 # 1))); ((10000000 # 1), (Arr (2033230000000000000 # 1) ((-243421) # 100000) (335957000 # 1)))], [Conc 3; Conc 12]) (* r121b 1267 3881 *);
   (Plog [((1000 # 1), (Arr (16210000 # 1) (193 # 200) (13447400 # 1))); ((10000 # 1), (Arr (18070000 # 1) (19 # 20) (13585400 # 1))); ((100000 # 1), (Arr (46860000 # 1) (833 # 1000) (14920100 # 1))); ((1000000 # 1), (Arr (15250000000 # 1) (67 # 500) (23601900 # 1))); ((10000000 # 1), (Arr (359000000000 # 1) ((-93) # 500) (35986600 # 1)))], [Conc 11; Conc 10]) (* r122f 1290 3882 *);
   (Plog [((1000 # 1), (Arr (113341000000 # 1) (313997 # 10000000) ((-201950) # 1))); ((10000 # 1), (Arr (126347000000 # 1) (163997 # 10000000) ((-638777) # 10))); ((100000 # 1), (Arr (327648000000 # 1) ((-503) # 5000) (1270820 # 1))); ((1000000 # 1), (Arr (106629000000000 # 1) ((-1999) # 2500) (9952620 # 1))); ((10000000 # 1), (Arr (2510150000000000 # 1) ((-2799) # 2500) (22337300 # 1)))], [Conc 8; Conc 30]) (* r122b 1313 3883 *);
   (Plog [((1000 # 1), (Arr (1186000 # 1) (127 # 125) (49957000 # 1))); ((10000 # 1), (Arr (1188000 # 1) (127 # 125) (49957000 # 1))); ((100000 # 1), (Arr (1230000 # 1) (1011 # 1000) (49998800 # 1))); ((1000000 # 1), (Arr (1798000 # 1) (193 # 200) (50459000 # 1))); ((10000000 # 1), (Arr (52420000 # 1) (551 # 1000) (54684900 # 1)))], [Conc 11; Conc 10]) (* r123f 1336 3884 *);
   (Plog [((1000 # 1), (Arr (1887810000000 # 1) ((-454427) # 1000000) (1903500 # 1))); ((10000 # 1), (Arr (1890990000000 # 1) ((-454427) # 1000000) (1903500 # 1))); ((100000 # 1), (Arr (1957840000000 # 1) ((-459427) # 1000000) (1945340 # 1))); ((1000000 # 1), (Arr (2861950000000 # 1) ((-505427) # 1000000) (2405580 # 1))); ((10000000 # 1), (Arr (83439100000000 # 1) ((-919427) # 1000000) (6631420 # 1)))], [Conc 20; Conc 8]) (* r123b 1359 3885 *);
   (Plog [((1000 # 1), (Arr (867400 # 1) (787 # 1000) ((-12744500) # 1))); ((10000 # 1), (Arr (3115000 # 1) (63 # 100) ((-11167100) # 1))); ((100000 # 1), (Arr (155700000 # 1) (39 # 250) ((-5723710) # 1))); ((1000000 # 1), (Arr (1704000000000000000 # 1) ((-2641) # 1000) (26827800 # 1))); ((10000000 # 1), (Arr (725000000000000000 # 1) ((-1201) # 500) (40329600 # 1)))], [Conc 11; Conc 10]) (* r124f 1382 3886 *);
   (Plog [((1000 # 1), (Arr (1000730000000000 # 1) ((-194061) # 100000) (82750300 # 1))); ((10000 # 1), (Arr (3593800000000000 # 1) ((-209761) # 100000) (84327700 # 1))); ((100000 # 1), (Arr (179632000000000000 # 1) ((-257161) # 100000) (89771000 # 1))); ((1000000 # 1), (Arr (1965920000000000000000000000 # 1) ((-536861) # 100000) (122323000 # 1))); ((10000000 # 1), (Arr (836438000000000000000000000 # 1) ((-512961) # 100000) (135824000 # 1)))], [Conc 3; Conc 64]) (* r124b 1405 3887 *);
   (Simple (Arr (20000000000 # 1) (0 # 1) (0 # 1)), [Conc 64; Conc 10]) (* r125f 1407 3888 *);
   (Simple (Arr (5077529506040799 # 35184372088832) (96305608603463 # 35184372088832) (5460874270077161 # 16777216)), [Conc 7; Conc 25]) (* r125b 1408 3889 *);
   (Simple (Arr (200000000000 # 1) (0 # 1) (0 # 1)), [Conc 64; Conc 8]) (* r126f 1410 3890 *);
   (Simple (Arr (637810678649905 # 17179869184) (701546731212499 # 281474976710656) (1674269293954997 # 8388608)), [Conc 8; Conc 12]) (* r126b 1411 3891 *);
   (Simple (Arr (50000000000 # 1) (0 # 1) (0 # 1)), [Conc 64; Conc 9]) (* r127 1413 3892 *);
   (Simple (Arr (30000000000 # 1) (0 # 1) (0 # 1)), [Conc 64; Conc 9]) (* r128 1414 3893 *);
   (Simple (Arr (5000000000 # 1) (0 # 1) (0 # 1)), [Conc 64; Conc 4]) (* r129 1415 3894 *);
   (Simple (Arr (30000000000 # 1) (0 # 1) (0 # 1)), [Conc 64; Conc 4]) (* r130f 1416 3895 *);
   (Simple (Arr (2224795825061039 # 68719476736) (178113225860559 # 70368744177664) (758881029662577 # 1048576)), [Conc 7; Conc 6]) (* r130b 1417 3896 *);
   (Simple (Arr (1000000000 # 1) (2422936599525327 # 9007199254740992) ((-2876500) # 1)), [Conc 11; Conc 17]) (* r131f 1419 3897 *);
   (Simple (Arr (161594238226979 # 512) ((-248951607166021) # 562949953421312) (6768291046352475 # 67108864)), [Conc 10; Conc 20]) (* r131b 1421 3898 *);
   (Simple (Arr (8162774324609023 # 70368744177664) (5021513584518103 # 2251799813685248) ((-12644048) # 1)), [Conc 11; Conc 17]) (* r132f 1423 3899 *);
   (Simple (Arr (2359087356462127 # 68719476736) (145970397781471 # 70368744177664) (1882603253740169 # 8388608)), [Conc 4; Conc 2]) (* r132b 1425 3900 *);
   (Simple (Arr (55400000000 # 1) (3602879701896397 # 72057594037927936) ((-569024) # 1)), [Conc 11; Conc 9]) (* r133f 1427 3901 *);
   (Simple (Arr (7132935213287793 # 1024) ((-30758335543261) # 140737488355328) (4842961301070941 # 16777216)), [Conc 8; Conc 12]) (* r133b 1429 3902 *);
   (Simple (Arr (7546000000 # 1) (0 # 1) (118490880 # 1)), [Conc 11; Conc 4]) (* r134f 1431 3903 *);
   (Simple (Arr (1587105573911839 # 64) ((-146211952979665) # 140737488355328) ((-7105551161472991) # 68719476736)), [Conc 9; Conc 20]) (* r134b 1432 3904 *);
   (Simple (Arr (6089731387333365 # 2305843009213693952) (7392658788328669 # 2251799813685248) (4551500323880961 # 134217728)), [Conc 11; Conc 4]) (* r135f 1434 3905 *);
   (Simple (Arr (6323434680828655 # 9223372036854775808) (30311137016679 # 8796093022208) (8475933847746507 # 33554432)), [Conc 10; Conc 12]) (* r135b 1436 3906 *);
   (Falloff (Arr (6850000000000000000 # 1) ((-3) # 1) (0 # 1)) (Arr (7812000 # 1) (8106479329266893 # 9007199254740992) (0 # 1)) [Decay (3602879701896397 # 9007199254740992) (1000 # 1); Decay (5404319552844595 # 9007199254740992) (70 # 1); Grow (1 # 1) (1700 # 1)] 19, [Conc 11; Conc 4]) (* r136f 1443 3907 *);
   (Falloff (Arr (4177353477239849292633473024 # 1) ((-1168236062801637) # 281474976710656) (2330925163105167 # 16777216)) (Arr (4764012461926672 # 1) ((-2255476916162515) # 9007199254740992) (2330925163105167 # 16777216)) [Decay (3602879701896397 # 9007199254740992) (1000 # 1); Decay (5404319552844595 # 9007199254740992) (70 # 1); Grow (1 # 1) (1700 # 1)] 19, [Conc 32]) (* r136b 1449 3908 *);
   (Simple (Arr (1990000000 # 1) (0 # 1) (48785440 # 1)), [Conc 32; Conc 12]) (* r137f 1451 3909 *);
   (Simple (Arr (6599317425339159 # 131072) ((-232489709765959) # 281474976710656) (4691510808498633 # 134217728)), [Conc 25; Conc 31]) (* r137b 1452 3910 *);
   (Simple (Arr (1106804644422573 # 1152921504606846976) (8489285297593385 # 2251799813685248) (5000753903042561 # 67108864)), [Conc 2; Conc 32]) (* r138f 1454 3911 *);
   (Simple (Arr (8616721302364009 # 2305843009213693952) (1753174457345519 # 562949953421312) ((-6083903044380173) # 536870912)), [Conc 31; Conc 11]) (* r138b 1456 3912 *);
   (Simple (Arr (1810000000 # 1) (0 # 1) (7699083212881921 # 134217728)), [Conc 21; Conc 32]) (* r139f 1458 3913 *);
   (Simple (Arr (1669085516701421 # 16384) ((-4364336702017999) # 4503599627370496) (331392095276557 # 33554432)), [Conc 31; Conc 30]) (* r139b 1459 3914 *);
   (Simple (Arr (5080000000 # 1) (0 # 1) ((-6338968001970177) # 1073741824)), [Conc 32; Conc 11]) (* r140f 1461 3915 *);
   (Simple (Arr (6291688668146929 # 1024) ((-73576380170861) # 70368744177664) (3885024946393901 # 33554432)), [Conc 20; Conc 20]) (* r140b 1462 3916 *);
   (Simple (Arr (247000000 # 1) (0 # 1) ((-6568880) # 1)), [Conc 32; Conc 17]) (* r141f 1464 3917 *);
   (Simple (Arr (582739119371349 # 2048) ((-228381040465499) # 281474976710656) (606705116838763 # 4194304)), [Conc 4; Conc 31]) (* r141b 1465 3918 *);
   (Simple (Arr (311000000000 # 1) ((-7250795400066499) # 4503599627370496) ((-4721655116988417) # 1073741824)), [Conc 32; Conc 32]) (* r142 1467 3919 *);
   (Simple (Arr (14000000000000 # 1) ((-7250795400066499) # 4503599627370496) (8356116572405761 # 1073741824)), [Conc 32; Conc 32]) (* r143 1469 3920 *);
   (Simple (Arr (96000000000 # 1) (0 # 1) (0 # 1)), [Conc 32; Conc 8]) (* r144f 1471 3921 *);
   (Simple (Arr (1223832530591453 # 16777216) (119582841190859 # 281474976710656) (1423881066739711 # 8388608)), [Conc 10; Conc 20]) (* r144b 1472 3922 *);
   (Simple (Arr (36000000000 # 1) (0 # 1) (0 # 1)), [Conc 32; Conc 9]) (* r145f 1474 3923 *);
   (Simple (Arr (6783705333869 # 512) ((-940807361865) # 140737488355328) (8062481379438875 # 33554432)), [Conc 4; Conc 20]) (* r145b 1475 3924 *);
   (Simple (Arr (60000000000 # 1) (0 # 1) (0 # 1)), [Conc 32; Conc 10]) (* r146f 1477 3925 *);
   (Simple (Arr (5419244879709943 # 262144) (12672536878615 # 35184372088832) (2106074682497027 # 8388608)), [Conc 4; Conc 21]) (* r146b 1478 3926 *);
   (Simple (Arr (631000000000000 # 1) (0 # 1) (176983200 # 1)), [Conc 31]) (* r147f 1480 3927 *);
   (Simple (Arr (2435102265735469 # 8589934592) (5631993613080375 # 4503599627370496) ((-5066731229275401) # 536870912)), [Conc 10; Conc 20]) (* r147b 1481 3928 *);
   (Simple (Arr (15000000000 # 1) (0 # 1) (2510400 # 1)), [Conc 72; Conc 0]) (* r148f 1483 3929 *);
   (Simple (Arr (4536132354392913 # 524288) ((-34505555446189) # 1125899906842624) (5328140849767147 # 134217728)), [Conc 0; Conc 35]) (* r148b 1484 3930 *);
   (Simple (Arr (9000000000 # 1) (0 # 1) (2510400 # 1)), [Conc 72; Conc 75]) (* r149f 1486 3931 *);
   (Simple (Arr (5443358825269437 # 1048576) ((-34505555446133) # 1125899906842624) (83252200777611 # 2097152)), [Conc 75; Conc 35]) (* r149b 1487 3932 *);
   (Simple (Arr (30000000000 # 1) (0 # 1) (0 # 1)), [Conc 72; Conc 8]) (* r150f 1489 3933 *);
   (Simple (Arr (1503723984364391 # 1048576) (249498211139729 # 1125899906842624) (6592579885775215 # 134217728)), [Conc 3; Conc 36]) (* r150b 1490 3934 *);
   (Simple (Arr (15000000000 # 1) (0 # 1) (0 # 1)), [Conc 72; Conc 9]) (* r151f 1492 3935 *);
   (Simple (Arr (3153262940100877 # 65536) (3033334110331 # 17592186044416) (6601242045705441 # 8388608)), [Conc 3; Conc 5]) (* r151b 1493 3936 *);
   (Simple (Arr (15000000000 # 1) (0 # 1) (0 # 1)), [Conc 72; Conc 9]) (* r152f 1495 3937 *);
   (Simple (Arr (2104247718932835 # 1024) ((-69783448407907) # 140737488355328) (7041794417700487 # 16777216)), [Conc 8; Conc 25]) (* r152b 1496 3938 *);
   (Simple (Arr (30000000000 # 1) (0 # 1) (0 # 1)), [Conc 72; Conc 10]) (* r153f 1498 3939 *);
   (Simple (Arr (7793836286636419 # 4) ((-113844780578383) # 140737488355328) (3040426576131291 # 8388608)), [Conc 8; Conc 12]) (* r153b 1499 3940 *);
   (Simple (Arr (70000000000 # 1) (0 # 1) (0 # 1)), [Conc 72; Conc 3]) (* r154f 1501 3941 *);
   (Simple (Arr (1358658444265363 # 64) ((-322965001270111) # 562949953421312) (4520714166575349 # 67108864)), [Conc 8; Conc 11]) (* r154b 1502 3942 *);
   (Simple (Arr (28000000000 # 1) (0 # 1) (0 # 1)), [Conc 72; Conc 4]) (* r155 1504 3943 *);
   (Simple (Arr (12000000000 # 1) (0 # 1) (0 # 1)), [Conc 72; Conc 4]) (* r156f 1505 3944 *);
   (Simple (Arr (7212941307187937 # 8388608) (35347478888481 # 70368744177664) (6536116640454729 # 8388608)), [Conc 7; Conc 5]) (* r156b 1506 3945 *);
   (Simple (Arr (30000000000 # 1) (0 # 1) (0 # 1)), [Conc 72; Conc 7]) (* r157f 1508 3946 *);
   (Simple (Arr (2268066177195131 # 131072) ((-34505555446181) # 1125899906842624) (4991200665395901 # 134217728)), [Conc 7; Conc 35]) (* r157b 1509 3947 *);
   (Simple (Arr (9000000000 # 1) (0 # 1) (0 # 1)), [Conc 72; Conc 5]) (* r158f 1511 3948 *);
   (Simple (Arr (5443358825267657 # 1048576) ((-17252777723081) # 562949953421312) (623900083174487 # 16777216)), [Conc 5; Conc 35]) (* r158b 1512 3949 *);
   (Simple (Arr (7000000000 # 1) (0 # 1) (0 # 1)), [Conc 72; Conc 6]) (* r159f 1514 3950 *);
   (Simple (Arr (8467447061527583 # 2097152) ((-17252777723083) # 562949953421312) (4991200665395895 # 134217728)), [Conc 6; Conc 35]) (* r159b 1515 3951 *);
   (Simple (Arr (14000000000 # 1) (0 # 1) (0 # 1)), [Conc 72; Conc 6]) (* r160f 1517 3952 *);
   (Simple (Arr (5789913225944325 # 33554432) (2038808489441 # 4398046511104) (8557350788436407 # 33554432)), [Conc 5; Conc 12]) (* r160b 1518 3953 *);
   (Falloff (Arr (3200000000000000000000 # 1) ((-7070651414971679) # 2251799813685248) (5525819023687681 # 1073741824)) (Arr (25000000000000 # 1) ((-3602879701896397) # 4503599627370496) (0 # 1)) [Decay (2882303761517117 # 9007199254740992) (78 # 1); Decay (6124895493223875 # 9007199254740992) (1995 # 1); Grow (1 # 1) (5590 # 1)] 20, [Conc 35; Conc 8]) (* r161f 1526 3954 *);
   (Falloff (Arr (404081891295354777210191872 # 1) ((-234777141190933) # 70368744177664) (7859155189781381 # 16777216)) (Arr (3156889775744960000 # 1) ((-4487313908172751) # 4503599627370496) (7772814267536261 # 16777216)) [Decay (2882303761517117 # 9007199254740992) (78 # 1); Decay (6124895493223875 # 9007199254740992) (1995 # 1); Grow (1 # 1) (5590 # 1)] 20, [Conc 11]) (* r161b 1532 3955 *);
   (Simple (Arr (10600000000 # 1) (0 # 1) (6738803687424001 # 1073741824)), [Conc 35; Conc 4]) (* r162f 1534 3956 *);
   (Simple (Arr (5450335512000097 # 1048576) ((-2369013009927) # 70368744177664) (5339709585902013 # 16777216)), [Conc 10; Conc 25]) (* r162b 1535 3957 *);
   (Simple (Arr (2640000000 # 1) (0 # 1) (6738803687424001 # 1073741824)), [Conc 35; Conc 4]) (* r163 1537 3958 *);
   (Simple (Arr (50000000000 # 1) (0 # 1) (0 # 1)), [Conc 35; Conc 9]) (* r164 1538 3959 *);
   (Simple (Arr (1000000000000000 # 1) ((-3512807709348987) # 2251799813685248) (0 # 1)), [Conc 35; Conc 8]) (* r165f 1539 3960 *);
   (Simple (Arr (5303986275124863 # 64) ((-184050011011077) # 140737488355328) (6405516881517335 # 536870912)), [Conc 3; Conc 36]) (* r165b 1540 3961 *);
   (Simple (Arr (270000000 # 1) (6034823500676465 # 9007199254740992) (107528800 # 1)), [Conc 35; Conc 8]) (* r166f 1542 3962 *);
   (Simple (Arr (750820416187501 # 33554432) (32448647005369 # 35184372088832) (8016825225473153 # 67108864)), [Conc 3; Conc 36]) (* r166b 1544 3963 *);
   (Simple (Arr (6212240696934399 # 549755813888) (2 # 1) (6738803687424001 # 536870912)), [Conc 35; Conc 10]) (* r167f 1546 3964 *);
   (Simple (Arr (2785201373512199 # 274877906944) (302671504470881 # 140737488355328) (2927975527036099 # 33554432)), [Conc 7; Conc 36]) (* r167b 1548 3965 *);
   (Simple (Arr (33000000000 # 1) (0 # 1) (0 # 1)), [Conc 36; Conc 4]) (* r168f 1550 3966 *);
   (Simple (Arr (5448890957613871 # 16384) ((-4443352142867) # 17592186044416) (2566205023364611 # 8388608)), [Conc 9; Conc 25]) (* r168b 1551 3967 *);
   (Simple (Arr (57000000000 # 1) (0 # 1) (0 # 1)), [Conc 36; Conc 9]) (* r169f 1553 3968 *);
   (Simple (Arr (7833337637014909 # 2048) ((-3460301754895) # 70368744177664) (6189205802844479 # 8388608)), [Conc 8; Conc 5]) (* r169b 1554 3969 *);
   (Simple (Arr (30000000000 # 1) (0 # 1) (0 # 1)), [Conc 36; Conc 10]) (* r170f 1556 3970 *);
   (Simple (Arr (4686073759273377 # 32) ((-96279045100235) # 140737488355328) (789486075371155 # 2097152)), [Conc 8; Conc 25]) (* r170b 1557 3971 *);
   (Simple (Arr (17130000000 # 1) (0 # 1) ((-3158920) # 1)), [Conc 36; Conc 7]) (* r171f 1559 3972 *);
   (Simple (Arr (2151119478180992 # 1) ((-65364056953909) # 70368744177664) (4150555037635331 # 16777216)), [Conc 12; Conc 8]) (* r171b 1560 3973 *);
   (Simple (Arr (1700000000 # 1) (0 # 1) (6154774034513921 # 2147483648)), [Conc 36; Conc 6]) (* r172f 1562 3974 *);
   (Simple (Arr (6763488633229977 # 4294967296) (41403803570133 # 70368744177664) (4561795017069505 # 16777216)), [Conc 5; Conc 25]) (* r172b 1563 3975 *);
   (Falloff (Arr (80540000000000000377487360 # 1) ((-15) # 4) (8819746266100533 # 2147483648)) (Arr (2277000000000 # 1) ((-1553741871442821) # 2251799813685248) (6285956079629107 # 8589934592)) [Decay (1 # 1) (570 # 1); Grow (1 # 1) (1000000000000000019884624838656 # 1)] 21, [Conc 11; Conc 11]) (* r173f 1571 3976 *);
   (Falloff (Arr (13529222300010365690977843393714978816 # 1) ((-720470194994223) # 140737488355328) (6517183228087277 # 16777216)) (Arr (382493657525746279645184 # 1) ((-4637015690030709) # 2251799813685248) (201892381823481 # 524288)) [Decay (1 # 1) (570 # 1); Grow (1 # 1) (1000000000000000019884624838656 # 1)] 21, [Conc 13]) (* r173b 1577 3977 *);
   (Falloff (Arr (199000000000000016263126324682424320 # 1) ((-3985685670222889) # 562949953421312) (27970040 # 1)) (Arr (521000000000000 # 1) ((-4458563631096791) # 4503599627370496) (6610720 # 1)) [Decay (1423137482249077 # 9007199254740992) (125 # 1); Decay (7584061772491915 # 9007199254740992) (2219 # 1); Grow (1 # 1) (6882 # 1)] 22, [Conc 42; Conc 8]) (* r174f 1586 3978 *);
   (Falloff (Arr (202441948648690426320555028547773996728320 # 1) ((-127704382366389) # 17592186044416) (1895296746441603 # 4194304)) (Arr (530011332894310137856 # 1) ((-5265400155109263) # 4503599627370496) (1805709265128323 # 4194304)) [Decay (1423137482249077 # 9007199254740992) (125 # 1); Decay (7584061772491915 # 9007199254740992) (2219 # 1); Grow (1 # 1) (6882 # 1)] 22, [Conc 13]) (* r174b 1592 3979 *);
   (Simple (Arr (115000 # 1) (4278419646001971 # 2251799813685248) (31505520 # 1)), [Conc 13; Conc 8]) (* r175f 1594 3980 *);
   (Simple (Arr (238809662025583 # 8796093022208) (2731234849529733 # 1125899906842624) (5465465121131983 # 134217728)), [Conc 3; Conc 42]) (* r175b 1596 3981 *);
   (Simple (Arr (3550 # 1) (5404319552844595 # 2251799813685248) (24392720 # 1)), [Conc 13; Conc 9]) (* r176f 1598 3982 *);
   (Simple (Arr (554004356405359 # 1125899906842624) (1628325682674803 # 562949953421312) (3725467897488553 # 134217728)), [Conc 10; Conc 42]) (* r176b 1600 3983 *);
   (Simple (Arr (8136386045542399 # 549755813888) (4278419646001971 # 2251799813685248) (3974800 # 1)), [Conc 13; Conc 10]) (* r177f 1602 3984 *);
   (Simple (Arr (1330122575841003 # 35184372088832) (1308401652512605 # 562949953421312) (39828814056393 # 524288)), [Conc 7; Conc 42]) (* r177b 1604 3985 *);
   (Simple (Arr (60300000000 # 1) (0 # 1) (217024080 # 1)), [Conc 13; Conc 4]) (* r178f 1606 3986 *);
   (Simple (Arr (2920151467136285 # 33554432) (46391563590921 # 281474976710656) ((-8323287711709349) # 4294967296)), [Conc 17; Conc 42]) (* r178b 1607 3987 *);
   (Simple (Arr (5054407876196417 # 9223372036854775808) (4 # 1) (4649774544322561 # 134217728)), [Conc 13; Conc 11]) (* r179f 1609 3988 *);
   (Simple (Arr (4317622277007829 # 18446744073709551616) (4513935453976475 # 1125899906842624) (3539950159783085 # 67108864)), [Conc 2; Conc 42]) (* r179b 1611 3989 *);
   (Simple (Arr (4986385507424613 # 144115188075855872) (8128997327403745 # 2251799813685248) (4750856599633921 # 67108864)), [Conc 13; Conc 17]) (* r180f 1613 3990 *);
   (Simple (Arr (5436505818507675 # 2305843009213693952) (3975439587855823 # 1125899906842624) (1729265058808903 # 134217728)), [Conc 18; Conc 42]) (* r180b 1615 3991 *);
   (Simple (Arr (5591669297343207 # 288230376151711744) (8196551321814303 # 2251799813685248) (4801397627289601 # 67108864)), [Conc 13; Conc 32]) (* r181f 1617 3992 *);
   (Simple (Arr (2324164855863959 # 72057594037927936) (6740635506813957 # 2251799813685248) (8166999402279241 # 2147483648)), [Conc 31; Conc 42]) (* r181b 1619 3993 *);
   (Simple (Arr (241000000 # 1) (0 # 1) (29664560 # 1)), [Conc 13; Conc 20]) (* r182f 1621 3994 *);
   (Simple (Arr (67156034261743 # 2147483648) (120942403492255 # 140737488355328) (2940155843432497 # 67108864)), [Conc 21; Conc 42]) (* r182b 1622 3995 *);
   (Simple (Arr (110000000000 # 1) (0 # 1) ((-4672237223280641) # 4294967296)), [Conc 13; Conc 36]) (* r183f 1624 3996 *);
   (Simple (Arr (5257198841899107 # 16777216) (1232085039769989 # 4503599627370496) ((-4084166610669135) # 1073741824)), [Conc 35; Conc 42]) (* r183b 1625 3997 *);
   (Simple (Arr (120000000000 # 1) (0 # 1) (0 # 1)), [Conc 72; Conc 13]) (* r184f 1627 3998 *);
   (Simple (Arr (4504511313986989 # 524288) ((-6738122001469) # 140737488355328) (2569573535105957 # 33554432)), [Conc 42; Conc 11]) (* r184b 1628 3999 *);
   (Falloff (Arr (1418999999999999846101972714258432 # 1) ((-7478227181248709) # 1125899906842624) (6479359745458177 # 268435456)) (Arr (956900 # 1) (1647191563710759 # 1125899906842624) (5669320 # 1)) [Decay (1766536953836077 # 1125899906842624) (299 # 1); Decay ((-640637046993453) # 1125899906842624) ((-9147) # 1); Grow (1 # 1) (5362098306337997 # 35184372088832)] 23, [Conc 40; Conc 8]) (* r185f 1637 4000 *);
   (Falloff (Arr (2993822827100762516098198766828388352 # 1) ((-954597606748643) # 140737488355328) (5811362880205319 # 33554432)) (Arr (8467791562478603 # 4194304) (372159472742581 # 281474976710656) (5191673724449287 # 33554432)) [Decay (1766536953836077 # 1125899906842624) (299 # 1); Decay ((-640637046993453) # 1125899906842624) ((-9147) # 1); Grow (1 # 1) (5362098306337997 # 35184372088832)] 23, [Conc 42]) (* r185b 1643 4001 *);
   (Simple (Arr (150000000000 # 1) (0 # 1) (108909520 # 1)), [Conc 3; Conc 32]) (* r186f 1645 4002 *);
   (Simple (Arr (4225444999169691 # 4) ((-659991467014027) # 562949953421312) (8576729465521581 # 268435456)), [Conc 31; Conc 8]) (* r186b 1646 4003 *);
   (Simple (Arr (150000000000 # 1) (0 # 1) (108909520 # 1)), [Conc 3; Conc 51]) (* r187f 1648 4004 *);
   (Simple (Arr (4634930743584751 # 2048) ((-10350482290023) # 70368744177664) (1798282154039383 # 67108864)), [Conc 50; Conc 8]) (* r187b 1649 4005 *);
   (Simple (Arr (482000000000 # 1) (0 # 1) (299281520 # 1)), [Conc 40; Conc 40]) (* r188f 1651 4006 *);
   (Simple (Arr (6444694926688663 # 8388608) (285346871609129 # 2251799813685248) ((-8261112004797207) # 536870912)), [Conc 41; Conc 42]) (* r188b 1652 4007 *);
   (Simple (Arr (6642809450371481 # 562949953421312) (2758454771764429 # 1125899906842624) ((-6561348523655169) # 536870912)), [Conc 11; Conc 42]) (* r189f 1654 4008 *);
   (Simple (Arr (667989967744121 # 274877906944) (42588049064175 # 17592186044416) (2354964853843719 # 8388608)), [Conc 40; Conc 2]) (* r189b 1656 4009 *);
   (Plog [((1000 # 1), (Arr (4740000000 # 1) (21 # 200) (44619400 # 1))); ((10000 # 1), (Arr (25700000000 # 1) ((-12) # 125) (47723100 # 1))); ((100000 # 1), (Arr (310000000000 # 1) ((-181) # 500) (55950500 # 1))); ((1000000 # 1), (Arr (21500000 # 1) (177 # 200) (56620000 # 1))); ((10000000 # 1), (Arr (129 # 1250) (323 # 100) (47011800 # 1)))], [Conc 11; Conc 11]) (* r190f 1679 4010 *);
   (Plog [((1000 # 1), (Arr (782694000000000 # 1) ((-108509) # 100000) (5062890 # 1))); ((10000 # 1), (Arr (4243720000000000 # 1) ((-128609) # 100000) (8166580 # 1))); ((100000 # 1), (Arr (51188900000000000 # 1) ((-155209) # 100000) (16394000 # 1))); ((1000000 # 1), (Arr (3550200000000 # 1) ((-61019) # 200000) (17063400 # 1))); ((10000000 # 1), (Arr (170409 # 10) (203991 # 100000) (7455300 # 1)))], [Conc 42; Conc 8]) (* r190b 1702 4011 *);
   (Simple (Arr (2000000000 # 1) (0 # 1) (0 # 1)), [Conc 42; Conc 8]) (* r191f 1704 4012 *);
   (Simple (Arr (7639199642231361 # 33554432) (34304348016607 # 70368744177664) (4765814353055399 # 16777216)), [Conc 3; Conc 40]) (* r191b 1705 4013 *);
   (Simple (Arr (110000000000 # 1) (0 # 1) (0 # 1)), [Conc 42; Conc 9]) (* r192f 1707 4014 *);
   (Simple (Arr (951639294832775 # 8) ((-2255432710049) # 4398046511104) (2680737554704853 # 8388608)), [Conc 8; Conc 62]) (* r192b 1708 4015 *);
   (Simple (Arr (11000000000 # 1) (0 # 1) (0 # 1)), [Conc 42; Conc 17]) (* r193f 1710 4016 *);
   (Simple (Arr (2818270826840117 # 256) ((-455030665751095) # 562949953421312) (7417777526819649 # 67108864)), [Conc 10; Conc 66]) (* r193b 1711 4017 *);
   (Simple (Arr (8000000000 # 1) (0 # 1) ((-4184000) # 1)), [Conc 32; Conc 42]) (* r194f 1713 4018 *);
   (Simple (Arr (1963666270196921 # 64) ((-321628281240833) # 281474976710656) (8341899739106137 # 67108864)), [Conc 66; Conc 20]) (* r194b 1714 4019 *);
   (Simple (Arr (42800000 # 1) (0 # 1) (4589848 # 1)), [Conc 66; Conc 4]) (* r195f 1716 4020 *);
   (Simple (Arr (820180795956755 # 8589934592) (204632095347005 # 281474976710656) (4801114085535907 # 33554432)), [Conc 17; Conc 62]) (* r195b 1717 4021 *);
   (Simple (Arr (300000000 # 1) (0 # 1) (26509824 # 1)), [Conc 11; Conc 12]) (* r196f 1719 4022 *);
   (Simple (Arr (280398575566244708352 # 1) ((-1224814065202549) # 562949953421312) (5619529168339525 # 67108864)), [Conc 66]) (* r196b 1720 4023 *);
   (Simple (Arr (46100 # 1) (1925288840700887 # 1125899906842624) (29664560 # 1)), [Conc 62; Conc 8]) (* r197f 1722 4024 *);
   (Simple (Arr (7953357139445423 # 262144) (545308791335327 # 562949953421312) (806245716186339 # 8388608)), [Conc 66]) (* r197b 1724 4025 *);
   (Simple (Arr (1990000000 # 1) (0 # 1) (48785440 # 1)), [Conc 51; Conc 12]) (* r198f 1726 4026 *);
   (Simple (Arr (7238853949681209 # 67108864) (448832756647509 # 2251799813685248) (7999420767633399 # 268435456)), [Conc 25; Conc 50]) (* r198b 1727 4027 *);
   (Simple (Arr (181000000 # 1) (0 # 1) (77320320 # 1)), [Conc 2; Conc 51]) (* r199f 1729 4028 *);
   (Simple (Arr (6483064600639665 # 4294967296) (1664325933128135 # 4503599627370496) ((-459131578307293) # 33554432)), [Conc 50; Conc 11]) (* r199b 1730 4029 *);
   (Simple (Arr (1810000000 # 1) (0 # 1) (7699083212881921 # 134217728)), [Conc 21; Conc 51]) (* r200f 1732 4030 *);
   (Simple (Arr (1830835752577681 # 8388608) (506328335065641 # 9007199254740992) (633767956424191 # 134217728)), [Conc 50; Conc 30]) (* r200b 1733 4031 *);
   (Simple (Arr (17500000 # 1) (0 # 1) ((-13702600) # 1)), [Conc 51; Conc 17]) (* r201f 1735 4032 *);
   (Simple (Arr (362306438485789 # 8388608) (3763297742587 # 17592186044416) (8882645811785119 # 67108864)), [Conc 4; Conc 50]) (* r201b 1736 4033 *);
   (Simple (Arr (4957562469809441 # 576460752303423488) (2116691824864133 # 562949953421312) (71964800 # 1)), [Conc 13; Conc 51]) (* r202f 1738 4034 *);
   (Simple (Arr (2260291453794767 # 73786976294838206464) (1164950239903943 # 281474976710656) ((-8013200937238365) # 8589934592)), [Conc 50; Conc 42]) (* r202b 1740 4035 *);
   (Simple (Arr (631000000000000 # 1) (0 # 1) (176983200 # 1)), [Conc 50]) (* r203f 1742 4036 *);
   (Simple (Arr (1416473059963609 # 4294967296) (2323945627621755 # 2251799813685248) ((-6834162544967381) # 536870912)), [Conc 10; Conc 66]) (* r203b 1743 4037 *);
   (Plog [((4000 # 1), (Arr (339800000000000000000000000000000000000000000000000 # 1) ((-139) # 10) (38823300 # 1))); ((100000 # 1), (Arr (936200000000000000000000000000000000000000000000000000000 # 1) ((-382) # 25) (59580200 # 1))); ((1000000 # 1), (Arr (1262000000000000000000000000000000000000000000000000000000 # 1) ((-1491) # 100) (67948200 # 1)))], [Conc 42; Conc 4]) (* r204f 1758 4038 *);
   (Plog [((4000 # 1), (Arr (263637000000000000000000000000000000000000000000000000000000000 # 1) ((-159543) # 10000) (193005000 # 1))); ((100000 # 1), (Arr (726359000000000000000000000000000000000000000000000000000000000000000 # 1) ((-173343) # 10000) (213762000 # 1))); ((1000000 # 1), (Arr (979134000000000000000000000000000000000000000000000000000000000000000 # 1) ((-169643) # 10000) (222130000 # 1)))], [Conc 51]) (* r204b 1773 4039 *);
   (Plog [((4000 # 1), (Arr (2094000 # 1) (49 # 100) ((-1637620) # 1))); ((100000 # 1), (Arr (18430 # 1) (113 # 100) ((-3014990) # 1))); ((1000000 # 1), (Arr (756100000000 # 1) ((-101) # 100) (19869800 # 1)))], [Conc 42; Conc 4]) (* r205f 1788 4040 *);
   (Plog [((4000 # 1), (Arr (1457200 # 1) (308243 # 500000) (54249700 # 1))); ((100000 # 1), (Arr (128253 # 10) (125649 # 100000) (52872300 # 1))); ((1000000 # 1), (Arr (526164000000 # 1) ((-441757) # 500000) (75757100 # 1)))], [Conc 17; Conc 40]) (* r205b 1803 4041 *);
   (Simple (Arr (7619658223946651 # 1152921504606846976) (1975954336508805 # 562949953421312) (59245440 # 1)), [Conc 42; Conc 4]) (* r206f 1805 4042 *);
   (Simple (Arr (2651229989692905 # 576460752303423488) (1023579867279121 # 281474976710656) (1931606961056047 # 16777216)), [Conc 17; Conc 40]) (* r206b 1807 4043 *);
   (Plog [((4000 # 1), (Arr (1303 # 1000) (193 # 100) ((-2103300) # 1))); ((100000 # 1), (Arr (1219 # 5000) (109 # 50) ((-261500) # 1))); ((1000000 # 1), (Arr (4621000 # 1) (3 # 20) (22631300 # 1)))], [Conc 42; Conc 4]) (* r207f 1822 4044 *);
   (Plog [((4000 # 1), (Arr (376971 # 1000) (39451 # 25000) (135758000 # 1))); ((100000 # 1), (Arr (705339 # 10000) (45701 # 25000) (137599000 # 1))); ((1000000 # 1), (Arr (1336900000 # 1) ((-50489) # 250000) (160492000 # 1)))], [Conc 10; Conc 39]) (* r207b 1837 4045 *);
   (Plog [((4000 # 1), (Arr (1227 # 250000000000) (119 # 25) (1063990 # 1))); ((100000 # 1), (Arr (6803 # 100000000) (357 # 100) (11058300 # 1))); ((1000000 # 1), (Arr (1653 # 2000) (241 # 100) (22112400 # 1)))], [Conc 42; Conc 4]) (* r208f 1852 4046 *);
   (Plog [((4000 # 1), (Arr (5479 # 500000000000) (46787 # 10000) (250092000 # 1))); ((100000 # 1), (Arr (151889 # 1000000000) (34887 # 10000) (260086000 # 1))); ((1000000 # 1), (Arr (184531 # 100000) (23287 # 10000) (271140000 # 1)))], [Conc 10; Conc 62]) (* r208b 1867 4047 *);
   (Plog [((4000 # 1), (Arr (123700000000000000000000000000000000 # 1) ((-471) # 50) (152130000 # 1))); ((100000 # 1), (Arr (1687000000000000000000000000000000000 # 1) ((-461) # 50) (161921000 # 1))); ((1000000 # 1), (Arr (252000000000000000000000000000000000000000 # 1) ((-51) # 5) (182883000 # 1)))], [Conc 51]) (* r209f 1882 4048 *);
   (Plog [((4000 # 1), (Arr (355970000000000000000000 # 1) ((-23272) # 3125) (246976000 # 1))); ((100000 # 1), (Arr (4854650000000000000000000 # 1) ((-22647) # 3125) (256767000 # 1))); ((1000000 # 1), (Arr (725176000000000000000000000000 # 1) ((-51419) # 6250) (277729000 # 1)))], [Conc 10; Conc 62]) (* r209b 1897 4049 *);
   (Plog [((4000 # 1), (Arr (178200000000000000000000000000000 # 1) ((-71) # 10) (137403000 # 1))); ((100000 # 1), (Arr (27010000000000000000000000000000000000 # 1) ((-847) # 100) (149955000 # 1))); ((1000000 # 1), (Arr (198000000000000000000000000000000000000 # 1) ((-423) # 50) (158574000 # 1)))], [Conc 51]) (* r210f 1912 4050 *);
   (Plog [((4000 # 1), (Arr (159833000000000000000 # 1) ((-245963) # 50000) (39107900 # 1))); ((100000 # 1), (Arr (24226100000000000000000000 # 1) ((-314463) # 50000) (51659900 # 1))); ((1000000 # 1), (Arr (177592000000000000000000000 # 1) ((-313963) # 50000) (60278900 # 1)))], [Conc 17; Conc 40]) (* r210b 1927 4051 *);
   (Plog [((4000 # 1), (Arr (5778000000000000000000000000000000000000000000 # 1) ((-119) # 10) (17204600 # 1))); ((100000 # 1), (Arr (19160000000000000000000000000000000000000000 # 1) ((-43) # 4) (177402000 # 1))); ((1000000 # 1), (Arr (39650000000000000000000000000000000000000000 # 1) ((-523) # 50) (190707000 # 1)))], [Conc 51]) (* r211f 1942 4052 *);
   (Plog [((4000 # 1), (Arr (2154560000000000000000000000000000000 # 1) ((-101977) # 10000) (883563 # 1))); ((100000 # 1), (Arr (7144580000000000000000000000000000 # 1) ((-90477) # 10000) (161081000 # 1))); ((1000000 # 1), (Arr (14785100000000000000000000000000000 # 1) ((-87577) # 10000) (174386000 # 1)))], [Conc 10; Conc 39]) (* r211b 1957 4053 *);
   (Simple (Arr (36300000000000 # 1) (0 # 1) (8030407727513601 # 33554432)), [Conc 39]) (* r212f 1959 4054 *);
   (Simple (Arr (3322207044948727 # 1125899906842624) (3838798549793781 # 2251799813685248) ((-2759499372839029) # 268435456)), [Conc 25; Conc 11]) (* r212b 1960 4055 *);
   (Simple (Arr (7407000000000 # 1) (0 # 1) (225099200 # 1)), [Conc 39]) (* r213f 1962 4056 *);
   (Simple (Arr (3746142838579621 # 65536) (38091775385227 # 140737488355328) (1410402936228371 # 4194304)), [Conc 62]) (* r213b 1963 4057 *);
   (Falloff (Arr (102999999999999991390192682547428406052096346731627675648 # 1) ((-3180667236830413) # 281474976710656) (401297900 # 1)) (Arr (24499999999999998951424 # 1) ((-7836263351624663) # 4503599627370496) (361309320 # 1)) [Decay (8984771328596687 # 9007199254740992) (6316474399247565 # 8796093022208); Decay (2870774546471049 # 1152921504606846976) (3427802266382369 # 562949953421312); Grow (1 # 1) (3780 # 1)] 24, [Conc 62]) (* r214f 1972 4058 *);
   (Falloff (Arr (1084914350592852450532303449344953311402393600 # 1) ((-173562560554713) # 17592186044416) (2719660516004545 # 67108864)) (Arr (4228090287793939 # 16384) ((-1377603064344583) # 4503599627370496) (2308629710811035 # 4294967296)) [Decay (8984771328596687 # 9007199254740992) (6316474399247565 # 8796093022208); Decay (2870774546471049 # 1152921504606846976) (3427802266382369 # 562949953421312); Grow (1 # 1) (3780 # 1)] 24, [Conc 25; Conc 11]) (* r214b 1978 4059 *);
   (Falloff (Arr (11439999999999999071741735532350865392285425996419563520 # 1) ((-3180667236830413) # 281474976710656) (401297900 # 1)) (Arr (2720000000000000000000 # 1) ((-7836263351624663) # 4503599627370496) (361309320 # 1)) [Decay (8984771328596687 # 9007199254740992) (6316474399247565 # 8796093022208); Decay (2870774546471049 # 1152921504606846976) (3427802266382369 # 562949953421312); Grow (1 # 1) (3780 # 1)] 25, [Conc 62]) (* r215f 1987 4060 *);
   (Falloff (Arr (5104435564903669526116018406557221678164738048 # 1) ((-85447594571091) # 8796093022208) (6989762298707765 # 16777216)) (Arr (155346178870355 # 128) ((-694755982736647) # 4503599627370496) (1579716313628621 # 4194304)) [Decay (8984771328596687 # 9007199254740992) (6316474399247565 # 8796093022208); Decay (2870774546471049 # 1152921504606846976) (3427802266382369 # 562949953421312); Grow (1 # 1) (3780 # 1)] 25, [Conc 5; Conc 2]) (* r215b 1993 4061 *);
   (Simple (Arr (131 # 1) (1452410879826985 # 562949953421312) (5480893665771521 # 1073741824)), [Conc 62; Conc 8]) (* r216f 1995 4062 *);
   (Simple (Arr (1445753388569011 # 18014398509481984) (1824417988999993 # 562949953421312) (4251967694175835 # 67108864)), [Conc 3; Conc 49]) (* r216b 1997 4063 *);
   (Simple (Arr (3062447746611937 # 1125899906842624) (6980579422424269 # 2251799813685248) (5851527868579841 # 268435456)), [Conc 62; Conc 8]) (* r217f 1999 4064 *);
   (Simple (Arr (1731663839541589 # 72057594037927936) (1908151566534387 # 562949953421312) (7663403539982601 # 134217728)), [Conc 3; Conc 53]) (* r217b 2001 4065 *);
   (Simple (Arr (5940000000 # 1) (0 # 1) (7815712 # 1)), [Conc 62; Conc 9]) (* r218f 2003 4066 *);
   (Simple (Arr (2294089069994005 # 1073741824) (88310097593085 # 140737488355328) (8082497419547599 # 134217728)), [Conc 10; Conc 49]) (* r218b 2004 4067 *);
   (Simple (Arr (3370000000 # 1) (0 # 1) ((-2589896) # 1)), [Conc 62; Conc 10]) (* r219f 2006 4068 *);
   (Simple (Arr (1499093944473785 # 67108864) (78697834230207 # 140737488355328) (3974258922290727 # 33554432)), [Conc 7; Conc 49]) (* r219b 2007 4069 *);
   (Simple (Arr (30100000000 # 1) (0 # 1) (163803600 # 1)), [Conc 62; Conc 4]) (* r220f 2009 4070 *);
   (Simple (Arr (3782626662807215 # 33554432) (675110892361001 # 2251799813685248) ((-6570214214428705) # 1073741824)), [Conc 17; Conc 49]) (* r220b 2010 4071 *);
   (Simple (Arr (6686870939743417 # 9444732965739290427392) (2578310786669609 # 562949953421312) (8832325366317057 # 1073741824)), [Conc 62; Conc 11]) (* r221f 2012 4072 *);
   (Simple (Arr (7411501883355779 # 9444732965739290427392) (2659473295881209 # 562949953421312) (5058062159445043 # 67108864)), [Conc 2; Conc 49]) (* r221b 2014 4073 *);
   (Simple (Arr (3010000000 # 1) (0 # 1) (49873280 # 1)), [Conc 62; Conc 17]) (* r222f 2016 4074 *);
   (Simple (Arr (139527353802349 # 262144) (31465057985637 # 562949953421312) (2751694030952869 # 67108864)), [Conc 18; Conc 49]) (* r222b 2017 4075 *);
   (Simple (Arr (3010000000 # 1) (0 # 1) (49873280 # 1)), [Conc 32; Conc 62]) (* r223f 2019 4076 *);
   (Simple (Arr (6808646292016633 # 524288) ((-143992178920703) # 281474976710656) (8366956820855791 # 268435456)), [Conc 49; Conc 31]) (* r223b 2020 4077 *);
   (Simple (Arr (3010000000 # 1) (0 # 1) (49873280 # 1)), [Conc 62; Conc 55]) (* r224f 2022 4078 *);
   (Simple (Arr (8086634047327381 # 2097152) ((-43660159861773) # 562949953421312) (3621722582899065 # 67108864)), [Conc 54; Conc 49]) (* r224b 2023 4079 *);
   (Simple (Arr (3000000000000 # 1) ((-2422936599525327) # 2251799813685248) (0 # 1)), [Conc 62; Conc 10]) (* r225f 2025 4080 *);
   (Simple (Arr (1750801842342335 # 262144) ((-22287953226781) # 281474976710656) (6693133761128649 # 67108864)), [Conc 27; Conc 11]) (* r225b 2026 4081 *);
   (Simple (Arr (172 # 1) (5404319552844595 # 2251799813685248) (7322833340334081 # 2147483648)), [Conc 62; Conc 10]) (* r226f 2028 4082 *);
   (Simple (Arr (4628060952362045 # 281474976710656) (1456870826887251 # 562949953421312) (6810569327686209 # 67108864)), [Conc 7; Conc 53]) (* r226b 2030 4083 *);
   (Falloff (Arr (5650000000000000 # 1) ((-4368491638549381) # 4503599627370496) (61086400 # 1)) (Arr (1070000000000 # 1) (5674535530486825 # 9007199254740992) (70709600 # 1)) [Decay (835417730877227 # 2251799813685248) (8730000000 # 1); Decay (1416382082808021 # 2251799813685248) (1553741871442821 # 281474976710656); Grow (1 # 1) (76000000 # 1)] 26, [Conc 49]) (* r227f 2039 4084 *);
   (Falloff (Arr (2442230985810589 # 1073741824) (2123715656628211 # 4503599627370496) (38862505377751 # 4194304)) (Arr (1894445059492351 # 4398046511104) (2332368765105251 # 1125899906842624) (5070408424355265 # 268435456)) [Decay (835417730877227 # 2251799813685248) (8730000000 # 1); Decay (1416382082808021 # 2251799813685248) (1553741871442821 # 281474976710656); Grow (1 # 1) (76000000 # 1)] 26, [Conc 5; Conc 11]) (* r227b 2045 4085 *);
   (Simple (Arr (20000000000 # 1) (0 # 1) (0 # 1)), [Conc 49; Conc 8]) (* r228f 2047 4086 *);
   (Simple (Arr (2168953611929103 # 524288) (41918908531845 # 140737488355328) (8465482704712057 # 33554432)), [Conc 3; Conc 52]) (* r228b 2048 4087 *);
   (Simple (Arr (20000000000 # 1) (0 # 1) (0 # 1)), [Conc 49; Conc 9]) (* r229f 2050 4088 *);
   (Simple (Arr (5093672971159989 # 2097152) (37227228831681 # 140737488355328) (516821835170675 # 2097152)), [Conc 10; Conc 52]) (* r229b 2051 4089 *);
   (Simple (Arr (50000000000 # 1) (0 # 1) (0 # 1)), [Conc 49; Conc 11]) (* r230f 2053 4090 *);
   (Simple (Arr (4790054391200399 # 256) ((-30792241458505) # 140737488355328) (4381898848352297 # 16777216)), [Conc 2; Conc 52]) (* r230b 2054 4091 *);
   (Simple (Arr (120000000 # 1) (0 # 1) ((-4941789370777601) # 1073741824)), [Conc 49; Conc 4]) (* r231f 2056 4092 *);
   (Simple (Arr (93597227484238594048 # 1) ((-567526987816775) # 281474976710656) (5548161666670303 # 33554432)), [Conc 55]) (* r231b 2057 4093 *);
   (Simple (Arr (17500000 # 1) (0 # 1) ((-13702600) # 1)), [Conc 55; Conc 17]) (* r232f 2059 4094 *);
   (Simple (Arr (6276712768305427 # 1048576) ((-106218941475703) # 281474976710656) (2689632350452807 # 16777216)), [Conc 4; Conc 54]) (* r232b 2060 4095 *);
   (Simple (Arr (2410000000 # 1) (0 # 1) (41572224 # 1)), [Conc 18; Conc 55]) (* r233f 2062 4096 *);
   (Simple (Arr (4576942008543413 # 262144) ((-75125217847159) # 562949953421312) (7319786557079723 # 134217728)), [Conc 54; Conc 17]) (* r233b 2063 4097 *);
   (Simple (Arr (181000000 # 1) (0 # 1) (77320320 # 1)), [Conc 2; Conc 55]) (* r234f 2065 4098 *);
   (Simple (Arr (3509833979097873 # 16777216) ((-499290676292707) # 2251799813685248) (119702554176441 # 8388608)), [Conc 54; Conc 11]) (* r234b 2066 4099 *);
   (Simple (Arr (1990000000 # 1) (0 # 1) (48785440 # 1)), [Conc 12; Conc 55]) (* r235f 2068 4100 *);
   (Simple (Arr (3919007001687577 # 262144) ((-441310443104527) # 1125899906842624) (3875738781934423 # 67108864)), [Conc 54; Conc 25]) (* r235b 2069 4101 *);
   (Simple (Arr (17000000000 # 1) (0 # 1) (85604640 # 1)), [Conc 13; Conc 55]) (* r236f 2071 4102 *);
   (Simple (Arr (549998265842881 # 65536) ((-239309511540621) # 1125899906842624) (1364317312622849 # 33554432)), [Conc 54; Conc 42]) (* r236b 2072 4103 *);
   (Simple (Arr (501000000000000 # 1) (0 # 1) (167987600 # 1)), [Conc 54]) (* r237f 2074 4104 *);
   (Simple (Arr (581625172710111 # 68719476736) (4163601524805963 # 2251799813685248) (4736181968715811 # 1073741824)), [Conc 10; Conc 61]) (* r237b 2075 4105 *);
   (Simple (Arr (4400000000000 # 1) (0 # 1) (43932000 # 1)), [Conc 61; Third 27]) (* r238f 2077 4106 *);
   (Simple (Arr (3611922121087851 # 8796093022208) (25911323732243 # 17592186044416) (4759606794645331 # 67108864)), [Conc 6; Conc 11; Third 27]) (* r238b 2078 4107 *);
   (Falloff (Arr (599999999999999925509160960 # 1) ((-4278419646001971) # 1125899906842624) (6096357030048563 # 33554432)) (Arr (1430000000000000 # 1) ((-5404319552844595) # 36028797018963968) (190790400 # 1)) [Decay (135107988821115 # 9007199254740992) (393 # 1); Decay (8872091265919877 # 9007199254740992) (9800000000 # 1); Grow (1 # 1) (5000000000 # 1)] 28, [Conc 53]) (* r239f 2087 4108 *);
   (Falloff (Arr (35832586552602869628928 # 1) ((-7830766953560381) # 2251799813685248) (6392513081891595 # 268435456)) (Arr (5596839801675459 # 65536) (6212837862252381 # 36028797018963968) (2209141216481371 # 67108864)) [Decay (135107988821115 # 9007199254740992) (393 # 1); Decay (8872091265919877 # 9007199254740992) (9800000000 # 1); Grow (1 # 1) (5000000000 # 1)] 28, [Conc 8; Conc 52]) (* r239b 2093 4109 *);
   (Falloff (Arr (9519999999999999761459663863808 # 1) ((-713539065961513) # 140737488355328) (172799200 # 1)) (Arr (2930000000000 # 1) (5224175567749775 # 18014398509481984) (168615200 # 1)) [Decay (9007199254740991 # 9007199254740992) (1150 # 1); Decay (361533951185091 # 5070602400912917605986812821504) (4990000000 # 1); Grow (1 # 1) (1790000000 # 1)] 29, [Conc 53]) (* r240f 2102 4110 *);
   (Falloff (Arr (265744079789591724032 # 1) ((-916814976851677) # 281474976710656) (301853475797573 # 2097152)) (Arr (719422611615107 # 8796093022208) (2367563593269757 # 1125899906842624) (293078991829573 # 2097152)) [Decay (9007199254740991 # 9007199254740992) (1150 # 1); Decay (361533951185091 # 5070602400912917605986812821504) (4990000000 # 1); Grow (1 # 1) (1790000000 # 1)] 29, [Conc 5; Conc 11]) (* r240b 2108 4111 *);
   (Plog [((1000 # 1), (Arr (188 # 1) (237 # 100) (99286300 # 1))); ((10000 # 1), (Arr (188 # 1) (237 # 100) (114516000 # 1))); ((100000 # 1), (Arr (251 # 1) (233 # 100) (99579200 # 1))); ((1000000 # 1), (Arr (70500 # 1) (163 # 100) (105813000 # 1)))], [Conc 53; Conc 4]) (* r241f 2127 4112 *);
   (Plog [((1000 # 1), (Arr (164843 # 10000) (26781 # 10000) (146357000 # 1))); ((10000 # 1), (Arr (164843 # 10000) (26781 # 10000) (161586000 # 1))); ((100000 # 1), (Arr (220083 # 10000) (26381 # 10000) (146649000 # 1))); ((1000000 # 1), (Arr (618161 # 100) (19381 # 10000) (152884000 # 1)))], [Conc 17; Conc 52]) (* r241b 2146 4113 *);
   (Plog [((1000 # 1), (Arr (268000000000000 # 1) ((-46) # 25) (27321500 # 1))); ((10000 # 1), (Arr (152000000000000000 # 1) ((-129) # 50) (37572300 # 1))); ((100000 # 1), (Arr (16500000000000000 # 1) ((-111) # 50) (43262600 # 1))); ((1000000 # 1), (Arr (89530000000 # 1) ((-3) # 5) (42342100 # 1)))], [Conc 53; Conc 4]) (* r242 2165 4114 *);
   (Falloff (Arr (2690000000000000043989860352 # 1) ((-5753348523965809) # 1125899906842624) (7968635360378881 # 268435456)) (Arr (810000000 # 1) (0 # 1) (0 # 1)) [Decay (230415415935343 # 562949953421312) (275 # 1); Decay (332534537485969 # 562949953421312) (1226 # 1); Grow (1 # 1) (5185 # 1)] 30, [Conc 35; Conc 5]) (* r243f 2173 4115 *);
   (Falloff (Arr (726728091920326286687152895069977051136 # 1) ((-956559190824771) # 140737488355328) (6106469226800501 # 16777216)) (Arr (218828905002031382528 # 1) ((-1899125002632359) # 1125899906842624) (5608429516776821 # 16777216)) [Decay (230415415935343 # 562949953421312) (275 # 1); Decay (332534537485969 # 562949953421312) (1226 # 1); Grow (1 # 1) (5185 # 1)] 30, [Conc 52]) (* r243b 2179 4116 *);
   (Falloff (Arr (1515999999999999907456206763706419065878766157824 # 1) ((-2890748010818437) # 281474976710656) (231751760 # 1)) (Arr (94130000 # 1) (8633400485669241 # 4503599627370496) (3157915721321677 # 16777216)) [Decay (1797386611283565 # 4503599627370496) (8103000000 # 1); Decay (2706213016086931 # 4503599627370496) (2936575655464141 # 4398046511104); Grow (1 # 1) (5000000000 # 1)] 31, [Conc 49]) (* r244f 2188 4117 *);
   (Falloff (Arr (1305683389055939217685838391293325776663871488 # 1) ((-2904489167635221) # 281474976710656) (213588719797357 # 4194304)) (Arr (2785586087240931 # 34359738368) (8413541976600697 # 4503599627370496) (3971880467550217 # 536870912)) [Decay (1797386611283565 # 4503599627370496) (8103000000 # 1); Decay (2706213016086931 # 4503599627370496) (2936575655464141 # 4398046511104); Grow (1 # 1) (5000000000 # 1)] 31, [Conc 8; Conc 52]) (* r244b 2194 4118 *);
   (Simple (Arr (1401000000000 # 1) ((-6160924290242839) # 36028797018963968) (4932355045615207 # 134217728)), [Conc 52; Conc 8]) (* r245f 2196 4119 *);
   (Simple (Arr (5260662488052007 # 1048576) (105366547234119 # 562949953421312) (6691995971860155 # 268435456)), [Conc 3; Conc 63]) (* r245b 2198 4120 *);
   (Simple (Arr (77040000000 # 1) ((-6160924290242839) # 36028797018963968) (4698293930872013 # 268435456)), [Conc 52; Conc 8]) (* r246f 2200 4121 *);
   (Simple (Arr (1237273934907049 # 34359738368) (185685945874233 # 140737488355328) (153626757589935 # 1048576)), [Conc 5; Conc 11]) (* r246b 2202 4122 *);
   (Simple (Arr (1750000000 # 1) (0 # 1) (6064923318681601 # 1073741824)), [Conc 52; Conc 9]) (* r247f 2204 4123 *);
   (Simple (Arr (646006138454187 # 134217728) (204803560658181 # 281474976710656) (6913763612396487 # 33554432)), [Conc 6; Conc 35]) (* r247b 2205 4124 *);
   (Simple (Arr (10000000000 # 1) (0 # 1) (33472000 # 1)), [Conc 52; Conc 9]) (* r248f 2207 4125 *);
   (Simple (Arr (352730561908473 # 16777216) (365728540936945 # 1125899906842624) (8483381456023417 # 536870912)), [Conc 10; Conc 63]) (* r248b 2208 4126 *);
   (Simple (Arr (10000000000 # 1) (0 # 1) (8368000 # 1)), [Conc 52; Conc 10]) (* r249f 2210 4127 *);
   (Simple (Arr (3250185851357765 # 8388608) (144415217016891 # 562949953421312) (7962598854127655 # 134217728)), [Conc 7; Conc 63]) (* r249b 2211 4128 *);
   (Simple (Arr (2000000000 # 1) (0 # 1) ((-4225840) # 1)), [Conc 52; Conc 10]) (* r250f 2213 4129 *);
   (Simple (Arr (3509175337085793 # 536870912) (313437981750061 # 562949953421312) (7457956941038407 # 67108864)), [Conc 5; Conc 30]) (* r250b 2214 4130 *);
   (Simple (Arr (838971352458199 # 17592186044416) (5206161169240293 # 2251799813685248) (39614112 # 1)), [Conc 52; Conc 11]) (* r251f 2216 4131 *);
   (Simple (Arr (4144199195450741 # 1125899906842624) (735292314348479 # 281474976710656) (2165350641657267 # 16777216)), [Conc 5; Conc 42]) (* r251b 2218 4132 *);
   (Simple (Arr (160000000000 # 1) (0 # 1) (0 # 1)), [Conc 72; Conc 52]) (* r252f 2220 4133 *);
   (Simple (Arr (6984795404239817 # 16384) (3766066226543 # 17592186044416) (7396729022684271 # 16777216)), [Conc 5; Conc 40]) (* r252b 2221 4134 *);
   (Simple (Arr (100000000000 # 1) (0 # 1) (0 # 1)), [Conc 63; Conc 10]) (* r253 2223 4135 *);
   (Simple (Arr (80000000000 # 1) (0 # 1) (0 # 1)), [Conc 63; Conc 9]) (* r254 2224 4136 *);
   (Simple (Arr (100000000000 # 1) (0 # 1) (0 # 1)), [Conc 63; Conc 8]) (* r255f 2225 4137 *);
   (Simple (Arr (5915274622921167 # 137438953472) (480171118766489 # 281474976710656) (4930003366305179 # 67108864)), [Conc 5; Conc 72]) (* r255b 2226 4138 *);
   (Simple (Arr (191000000 # 1) ((-5764607523034235) # 288230376151711744) (4267680 # 1)), [Conc 63; Conc 4]) (* r256 2228 4139 *);
   (Simple (Arr (4780000000 # 1) ((-5116089176692883) # 36028797018963968) (4811600 # 1)), [Conc 63; Conc 4]) (* r257 2230 4140 *);
   (Simple (Arr (75700000000000000 # 1) ((-4278419646001971) # 2251799813685248) (0 # 1)), [Conc 36; Conc 5; Third 32]) (* r258f 2232 4141 *);
   (Simple (Arr (883681007438619063533699072 # 1) ((-489884576710225) # 140737488355328) (325622655110545 # 1048576)), [Conc 63; Third 32]) (* r258b 2233 4142 *);
   (Simple (Arr (94600000000 # 1) (0 # 1) ((-2154760) # 1)), [Conc 36; Conc 12]) (* r259f 2235 4143 *);
   (Simple (Arr (108012713088212176 # 1) ((-178877449931751) # 140737488355328) (2662684020676623 # 8388608)), [Conc 52; Conc 8]) (* r259b 2236 4144 *);
   (Simple (Arr (50000000000 # 1) (0 # 1) (0 # 1)), [Conc 36; Conc 63]) (* r260f 2238 4145 *);
   (Simple (Arr (6652338099822817 # 16384) (9754682357861 # 35184372088832) (1376937741002463 # 2097152)), [Conc 57; Conc 5]) (* r260b 2239 4146 *);
   (Falloff (Arr (1400000000000000083886080 # 1) ((-8691947280825057) # 2251799813685248) (7457609414082561 # 536870912)) (Arr (6080000000 # 1) (607985949695017 # 2251799813685248) (5031640086609921 # 4294967296)) [Decay (61361544922923 # 281474976710656) (415 # 2); Decay (220113431787733 # 281474976710656) (2663 # 1); Grow (1 # 1) (6095 # 1)] 33, [Conc 41; Conc 8]) (* r261f 2248 4147 *);
   (Falloff (Arr (1853131806782021308290898591744 # 1) ((-580900093619225) # 140737488355328) (8013042206200021 # 16777216)) (Arr (8047886703739064 # 1) (2765866306237 # 1125899906842624) (3899823378049131 # 8388608)) [Decay (61361544922923 # 281474976710656) (415 # 2); Decay (220113431787733 # 281474976710656) (2663 # 1); Grow (1 # 1) (6095 # 1)] 33, [Conc 40]) (* r261b 2254 4148 *);
   (Falloff (Arr (699999999999999949562451716946656452454828212224 # 1) ((-5241064066352415) # 562949953421312) (7009759752355841 # 16777216)) (Arr (8000000000000 # 1) (7926335344172073 # 18014398509481984) (371413680 # 1)) [Decay (2391411402133733 # 9007199254740992) (180 # 1); Decay (6615787852607259 # 9007199254740992) (1035 # 1); Grow (1 # 1) (5417 # 1)] 34, [Conc 40]) (* r262f 2263 4149 *);
   (Falloff (Arr (3399204563321161719798886940691302187008 # 1) ((-2386346329177631) # 281474976710656) (3319797679286035 # 67108864)) (Arr (5339235632229797 # 137438953472) (2864277550010121 # 2251799813685248) (6589081879110107 # 2147483648)) [Decay (2391411402133733 # 9007199254740992) (180 # 1); Decay (6615787852607259 # 9007199254740992) (1035 # 1); Grow (1 # 1) (5417 # 1)] 34, [Conc 56; Conc 3]) (* r262b 2269 4150 *);
   (Simple (Arr (6968154941030399 # 137438953472) (8691947280825057 # 4503599627370496) (54182800 # 1)), [Conc 40; Conc 8]) (* r263f 2271 4151 *);
   (Simple (Arr (5178585428757551 # 562949953421312) (2864529824273391 # 1125899906842624) (6329286978268863 # 268435456)), [Conc 3; Conc 41]) (* r263b 2273 4152 *);
   (Simple (Arr (8194660161814527 # 1099511627776) (2116691824864133 # 1125899906842624) (765672 # 1)), [Conc 40; Conc 9]) (* r264f 2275 4153 *);
   (Simple (Arr (3226580542519545 # 18014398509481984) (1497706225082887 # 562949953421312) (911147995152413 # 8388608)), [Conc 25; Conc 11]) (* r264b 2277 4154 *);
   (Simple (Arr (6098 # 1) (2116691824864133 # 1125899906842624) (765672 # 1)), [Conc 40; Conc 9]) (* r265f 2279 4155 *);
   (Simple (Arr (8793138649948809 # 17179869184) (658222452341163 # 562949953421312) (4802846206380089 # 67108864)), [Conc 8; Conc 53]) (* r265b 2281 4156 *);
   (Simple (Arr (6276891980647629 # 281474976710656) (3090595244283003 # 1125899906842624) (9269652 # 1)), [Conc 40; Conc 10]) (* r266f 2283 4157 *);
   (Simple (Arr (3154524630390885 # 72057594037927936) (3667706703845357 # 1125899906842624) (5562324773155403 # 134217728)), [Conc 7; Conc 41]) (* r266b 2285 4158 *);
   (Plog [((1000 # 1), (Arr (107 # 20000) (73 # 25) ((-7249620) # 1))); ((2500 # 1), (Arr (319 # 10000) (271 # 100) ((-4904900) # 1))); ((10000 # 1), (Arr (111 # 200) (59 # 25) ((-756467) # 1))); ((100000 # 1), (Arr (178 # 1) (42 # 25) (8621130 # 1))); ((1000000 # 1), (Arr (2370000 # 1) (14 # 25) (25132000 # 1))); ((10000000 # 1), (Arr (27600000000 # 1) ((-1) # 2) (47928100 # 1)))], [Conc 40; Conc 10]) (* r267f 2312 4159 *);
   (Plog [((1000 # 1), (Arr (609551 # 10000000000) (338739 # 100000) (43325500 # 1))); ((2500 # 1), (Arr (90863 # 250000000) (317739 # 100000) (45670200 # 1))); ((10000 # 1), (Arr (316169 # 50000000) (282739 # 100000) (49818600 # 1))); ((100000 # 1), (Arr (50701 # 25000) (214739 # 100000) (59196200 # 1))); ((1000000 # 1), (Arr (54005 # 2) (102739 # 100000) (75707100 # 1))); ((10000000 # 1), (Arr (314460000 # 1) ((-326139) # 10000000) (98503200 # 1)))], [Conc 12; Conc 11]) (* r267b 2339 4160 *);
   (Plog [((1000 # 1), (Arr (237 # 1000000000000) (53 # 10) ((-8579710) # 1))); ((2500 # 1), (Arr (873 # 10000000000) (457 # 100) ((-2585710) # 1))); ((10000 # 1), (Arr (403 # 1000000) (177 # 50) (7873030 # 1))); ((100000 # 1), (Arr (119 # 5000000) (391 # 100) (7207780 # 1))); ((1000000 # 1), (Arr (825000 # 1) (101 # 100) (43962500 # 1))); ((10000000 # 1), (Arr (6800000 # 1) (81 # 100) (58020800 # 1)))], [Conc 40; Conc 10]) (* r268f 2366 4161 *);
   (Plog [((1000 # 1), (Arr (191743 # 50000000000) (216651 # 50000) (32775600 # 1))); ((2500 # 1), (Arr (141259 # 100000000) (180151 # 50000) (38769600 # 1))); ((10000 # 1), (Arr (81511 # 12500) (128651 # 50000) (49228400 # 1))); ((100000 # 1), (Arr (24069 # 62500) (147151 # 50000) (48563100 # 1))); ((1000000 # 1), (Arr (13349200000 # 1) (430163 # 10000000) (85317900 # 1))); ((10000000 # 1), (Arr (110030000000 # 1) ((-19623) # 125000) (99376100 # 1)))], [Conc 8; Conc 62]) (* r268b 2393 4162 *);
   (Plog [((1000 # 1), (Arr (52 # 5) (13 # 5) (17242300 # 1))); ((2500 # 1), (Arr (107 # 10) (13 # 5) (17275700 # 1))); ((10000 # 1), (Arr (76 # 5) (64 # 25) (17733000 # 1))); ((100000 # 1), (Arr (319 # 1) (219 # 100) (21989400 # 1))); ((1000000 # 1), (Arr (194000 # 1) (143 # 100) (32755700 # 1))); ((10000000 # 1), (Arr (85500000 # 1) (3 # 4) (48077500 # 1)))], [Conc 40; Conc 10]) (* r269f 2420 4163 *);
   (Plog [((1000 # 1), (Arr (6839690 # 1) (55451 # 50000) (14833700 # 1))); ((2500 # 1), (Arr (7036990 # 1) (55451 # 50000) (14867200 # 1))); ((10000 # 1), (Arr (9996470 # 1) (53451 # 50000) (15324500 # 1))); ((100000 # 1), (Arr (209794000 # 1) (349511 # 500000) (19580800 # 1))); ((1000000 # 1), (Arr (127587000000 # 1) ((-609783) # 10000000) (30347100 # 1))); ((10000000 # 1), (Arr (56230200000000 # 1) ((-370489) # 500000) (45668900 # 1)))], [Conc 8; Conc 65]) (* r269b 2447 4164 *);
   (Simple (Arr (531000000 # 1) (7566047373982433 # 36028797018963968) (166648720 # 1)), [Conc 65; Conc 4]) (* r270f 2449 4165 *);
   (Simple (Arr (6061372338019637 # 8589934592) (1491918105038403 # 2251799813685248) (1176649159840415 # 67108864)), [Conc 17; Conc 53]) (* r270b 2451 4166 *);
   (Simple (Arr (1875 # 1) (4278419646001971 # 2251799813685248) ((-7727161561579521) # 2147483648)), [Conc 65; Conc 9]) (* r271f 2453 4167 *);
   (Simple (Arr (8621532840866673 # 36028797018963968) (1508827614823611 # 562949953421312) (4671626134401769 # 67108864)), [Conc 10; Conc 53]) (* r271b 2455 4168 *);
   (Simple (Arr (3330000 # 1) (2476979795053773 # 2251799813685248) (2261452 # 1)), [Conc 65; Conc 10]) (* r272f 2457 4169 *);
   (Simple (Arr (4305688613379511 # 549755813888) (255004649658795 # 140737488355328) (2417610268707161 # 16777216)), [Conc 7; Conc 53]) (* r272b 2459 4170 *);
   (Simple (Arr (6282545699373305 # 309485009821345068724781056) (3321404725185741 # 562949953421312) (4401568 # 1)), [Conc 65; Conc 11]) (* r273f 2461 4171 *);
   (Simple (Arr (4941495754298651 # 618970019642690137449562112) (3488549547348161 # 562949953421312) (6197780829447501 # 67108864)), [Conc 2; Conc 53]) (* r273b 2463 4172 *);
   (Simple (Arr (7656119366529843 # 2251799813685248) (5 # 2) (37329648 # 1)), [Conc 65; Conc 32]) (* r274f 2465 4173 *);
   (Simple (Arr (5860201546059049 # 1125899906842624) (2410745677325271 # 1125899906842624) (5292610176716803 # 134217728)), [Conc 31; Conc 53]) (* r274b 2467 4174 *);
   (Simple (Arr (3332663724254167 # 2251799813685248) (1732197006677377 # 562949953421312) (8109027103866881 # 268435456)), [Conc 65; Conc 8]) (* r275f 2469 4175 *);
   (Simple (Arr (5934636012918255 # 18446744073709551616) (1095093214400699 # 281474976710656) (7333023393130427 # 67108864)), [Conc 3; Conc 53]) (* r275b 2471 4176 *);
   (Simple (Arr (149 # 1) (940126422213591 # 562949953421312) (28493040 # 1)), [Conc 65; Conc 17]) (* r276f 2473 4177 *);
   (Simple (Arr (8254937132369691 # 2251799813685248) (1235109133409387 # 562949953421312) (2424541180312005 # 33554432)), [Conc 17; Conc 62]) (* r276b 2475 4178 *);
   (Plog [((10000 # 1), (Arr (74200000000000000000000000000000000000000000000 # 1) ((-264) # 25) (282085000 # 1))); ((100000 # 1), (Arr (4420000000000000000000000000000000000000000 # 1) ((-909) # 100) (280618000 # 1))); ((10000000 # 1), (Arr (2900000000000000000000000000 # 1) ((-87) # 20) (257788000 # 1)))], [Conc 65]) (* r277f 2490 4179 *);
   (Plog [((10000 # 1), (Arr (1825580000000000000000000000000000000000000000 # 1) ((-2509) # 250) (325849000 # 1))); ((100000 # 1), (Arr (108748000000000000000000000000000000000000 # 1) ((-856601) # 100000) (324381000 # 1))); ((10000000 # 1), (Arr (71350300000000000000000000 # 1) ((-382601) # 100000) (301552000 # 1)))], [Conc 62]) (* r277b 2505 4180 *);
   (Simple (Arr (7632340360497327 # 1152921504606846976) (4165829655317709 # 1125899906842624) (5334886252544001 # 134217728)), [Conc 40; Conc 11]) (* r278f 2507 4181 *);
   (Simple (Arr (5010732840070325 # 2305843009213693952) (8551366918923515 # 2251799813685248) (2420497396970193 # 134217728)), [Conc 2; Conc 41]) (* r278b 2509 4182 *);
   (Simple (Arr (42200000000 # 1) (0 # 1) (8089807474183373 # 33554432)), [Conc 40; Conc 4]) (* r279f 2511 4183 *);
   (Simple (Arr (6282459056495493 # 134217728) (17817764493873 # 70368744177664) ((-4747732827929897) # 268435456)), [Conc 17; Conc 41]) (* r279b 2512 4184 *);
   (Simple (Arr (120000000 # 1) (0 # 1) (28242000 # 1)), [Conc 40; Conc 20]) (* r280f 2514 4185 *);
   (Simple (Arr (3289488505548639 # 274877906944) (1067057205476059 # 1125899906842624) (5517828558461227 # 2147483648)), [Conc 21; Conc 41]) (* r280b 2515 4186 *);
   (Simple (Arr (4951797862286407 # 576460752303423488) (8453256500574421 # 2251799813685248) (7618217568632833 # 67108864)), [Conc 40; Conc 32]) (* r281f 2517 4187 *);
   (Simple (Arr (3163643315638545 # 288230376151711744) (1799094160162865 # 562949953421312) (6396501716092581 # 1073741824)), [Conc 31; Conc 41]) (* r281b 2519 4188 *);
   (Simple (Arr (4951797862286407 # 576460752303423488) (8453256500574421 # 2251799813685248) (7618217568632833 # 67108864)), [Conc 40; Conc 51]) (* r282f 2521 4189 *);
   (Simple (Arr (6940460788522111 # 295147905179352825856) (4752563537713345 # 1125899906842624) (3448393274547633 # 4294967296)), [Conc 50; Conc 41]) (* r282b 2523 4190 *);
   (Simple (Arr (11300000000 # 1) (0 # 1) (8544241508679681 # 67108864)), [Conc 40; Conc 55]) (* r283f 2525 4191 *);
   (Simple (Arr (8991041011274553 # 2097152) ((-34947883500511) # 281474976710656) (5711577349975589 # 134217728)), [Conc 54; Conc 41]) (* r283b 2526 4192 *);
   (Simple (Arr (2820000000 # 1) (0 # 1) (71588240 # 1)), [Conc 40; Conc 32]) (* r284f 2528 4193 *);
   (Simple (Arr (2300322852432797 # 512) ((-114391217843941) # 140737488355328) (5755134162556219 # 33554432)), [Conc 20; Conc 39]) (* r284b 2529 4194 *);
   (Simple (Arr (2820000000 # 1) (0 # 1) (71588240 # 1)), [Conc 40; Conc 51]) (* r285f 2531 4195 *);
   (Simple (Arr (733872660087407 # 65536) ((-1695028705749) # 281474976710656) (5471719599154953 # 33554432)), [Conc 66; Conc 39]) (* r285b 2532 4196 *);
   (Simple (Arr (557500000 # 1) (0 # 1) (71922960 # 1)), [Conc 40; Conc 17]) (* r286f 2534 4197 *);
   (Simple (Arr (474675595517931 # 2048) ((-134669487322607) # 281474976710656) (2581956326202005 # 16777216)), [Conc 10; Conc 39]) (* r286b 2535 4198 *);
   (Simple (Arr (60000000000 # 1) (0 # 1) (0 # 1)), [Conc 36; Conc 2]) (* r287f 2537 4199 *);
   (Simple (Arr (7909848919721825 # 2) ((-138099652972749) # 140737488355328) (4259114290206669 # 16777216)), [Conc 8; Conc 40]) (* r287b 2538 4200 *);
   (Simple (Arr (20000000000 # 1) (0 # 1) (0 # 1)), [Conc 72; Conc 11]) (* r288f 2540 4201 *);
   (Simple (Arr (114010282448718128 # 1) ((-179623526570627) # 140737488355328) (5232344271924835 # 16777216)), [Conc 8; Conc 40]) (* r288b 2541 4202 *);
   (Falloff (Arr (63459999999999988616658944 # 1) ((-2625598582756999) # 562949953421312) (15815520 # 1)) (Arr (17100000 # 1) (712694641031381 # 562949953421312) (6085139729743873 # 536870912)) [Decay (954763121002545 # 4503599627370496) ((-10200) # 1); Decay (3548836506367951 # 4503599627370496) (178405961588245 # 178405961588244985132285746181186892047843328)] 35, [Conc 57; Conc 8]) (* r289f 2549 4203 *);
   (Falloff (Arr (5300601881693923280695590912 # 1) ((-1223305013138253) # 281474976710656) (5547738685439131 # 33554432)) (Arr (748843641740895 # 524288) (445841598755937 # 281474976710656) (2698689564081741 # 16777216)) [Decay (954763121002545 # 4503599627370496) ((-10200) # 1); Decay (3548836506367951 # 4503599627370496) (178405961588245 # 178405961588244985132285746181186892047843328)] 35, [Conc 41]) (* r289b 2555 4204 *);
   (Simple (Arr (169999999999999978894262272 # 1) ((-5980780305148019) # 1125899906842624) (7303852376614503 # 268435456)), [Conc 41; Conc 4]) (* r290f 2557 4205 *);
   (Simple (Arr (9955916647084896280379392 # 1) ((-696571637792627) # 140737488355328) (1636648269158967 # 4194304)), [Conc 25; Conc 12]) (* r290b 2559 4206 *);
   (Simple (Arr (700000000000 # 1) ((-2751699372323373) # 4503599627370496) (2955190043725005 # 134217728)), [Conc 41; Conc 4]) (* r291f 2561 4207 *);
   (Simple (Arr (1138719709325736 # 1) ((-414080876517287) # 281474976710656) (7883269441801259 # 134217728)), [Conc 9; Conc 53]) (* r291b 2563 4208 *);
   (Simple (Arr (5190000000000 # 1) ((-5674535530486825) # 4503599627370496) (7440987031653581 # 536870912)), [Conc 41; Conc 4]) (* r292 2565 4209 *);
   (Simple (Arr (392000000 # 1) (0 # 1) (0 # 1)), [Conc 11; Conc 41]) (* r293f 2567 4210 *);
   (Simple (Arr (8352427100663013 # 4096) ((-68668802169829) # 140737488355328) (2453582178767969 # 8388608)), [Conc 57; Conc 2]) (* r293b 2568 4211 *);
   (Simple (Arr (90000000000 # 1) (0 # 1) (0 # 1)), [Conc 41; Conc 8]) (* r294f 2570 4212 *);
   (Simple (Arr (1059958865093649 # 4096) (4042347820513 # 140737488355328) (2379003430769837 # 8388608)), [Conc 3; Conc 57]) (* r294b 2571 4213 *);
   (Simple (Arr (60000000000 # 1) (0 # 1) (0 # 1)), [Conc 41; Conc 8]) (* r295f 2573 4214 *);
   (Simple (Arr (3235181767095409 # 8388608) (158878926861871 # 281474976710656) (3200363158950657 # 33554432)), [Conc 3; Conc 56]) (* r295b 2574 4215 *);
   (Simple (Arr (30110000000 # 1) (0 # 1) (0 # 1)), [Conc 41; Conc 10]) (* r296f 2576 4216 *);
   (Simple (Arr (7673670685365895 # 8192) ((-10261595242523) # 140737488355328) (181601081477447 # 524288)), [Conc 7; Conc 57]) (* r296b 2577 4217 *);
   (Simple (Arr (960000000 # 1) (0 # 1) (0 # 1)), [Conc 41; Conc 41]) (* r297f 2579 4218 *);
   (Simple (Arr (7789226809438495 # 512) ((-10300065960975) # 17592186044416) (164733217640085 # 524288)), [Conc 40; Conc 57]) (* r297b 2580 4219 *);
   (Falloff (Arr (3750000000000000118547808256 # 1) ((-5404319552844595) # 1125899906842624) (7949600 # 1)) (Arr (100000000000000 # 1) (0 # 1) (0 # 1)) [Decay (3188548536178311 # 9007199254740992) (132 # 1); Decay (5818650718562681 # 9007199254740992) (1315 # 1); Grow (1 # 1) (5566 # 1)] 36, [Conc 69; Conc 8]) (* r298f 2588 4220 *);
   (Falloff (Arr (3536865248101328618773450789486592 # 1) ((-22385225478117) # 4398046511104) (4752463297798915 # 8388608)) (Arr (94316406616035442688 # 1) ((-326298169553357) # 1125899906842624) (2342888609821057 # 4194304)) [Decay (3188548536178311 # 9007199254740992) (132 # 1); Decay (5818650718562681 # 9007199254740992) (1315 # 1); Grow (1 # 1) (5566 # 1)] 36, [Conc 57]) (* r298b 2594 4221 *);
   (Simple (Arr (50000000000 # 1) (0 # 1) (0 # 1)), [Conc 69; Conc 9]) (* r299f 2596 4222 *);
   (Simple (Arr (8960972727693037 # 268435456) (33939186174919 # 35184372088832) (5524501635184787 # 16777216)), [Conc 5; Conc 36]) (* r299b 2597 4223 *);
   (Simple (Arr (20000000000 # 1) (0 # 1) (0 # 1)), [Conc 69; Conc 10]) (* r300f 2599 4224 *);
   (Simple (Arr (8843667801037113 # 8) ((-261648822751755) # 281474976710656) (7132189957754451 # 33554432)), [Conc 63; Conc 8]) (* r300b 2600 4225 *);
   (Simple (Arr (50000000000 # 1) (0 # 1) (6738803687424001 # 1073741824)), [Conc 69; Conc 4]) (* r301f 2602 4226 *);
   (Simple (Arr (2822145593082151 # 8388608) (6263120472299 # 8796093022208) (2690551372382495 # 4194304)), [Conc 5; Conc 25]) (* r301b 2603 4227 *);
   (Simple (Arr (490 # 1) (5 # 2) (5031640086609921 # 2147483648)), [Conc 69; Conc 3]) (* r302f 2605 4228 *);
   (Simple (Arr (4132392065613255 # 2147483648) (524533925507037 # 281474976710656) (268041039799247 # 2097152)), [Conc 57; Conc 8]) (* r302b 2606 4229 *);
   (Falloff (Arr (2450000000000 # 1) ((-5764607523034235) # 9007199254740992) (6977469651353601 # 33554432)) (Arr (800000000000000 # 1) ((-1170935903116329) # 2251799813685248) (7124880982016001 # 33554432)) [Grow (1 # 1) (0 # 1)] 37, [Conc 57]) (* r303f 2613 4230 *);
   (Falloff (Arr (2871487853723679 # 524288) ((-234798030986551) # 2251799813685248) (2647276348900767 # 134217728)) (Arr (7325224116642039 # 4096) (141671786622715 # 9007199254740992) (3236921671550369 # 134217728)) [Grow (1 # 1) (0 # 1)] 37, [Conc 56]) (* r303b 2619 4231 *);
   (Simple (Arr (739500 # 1) (5764607523034235 # 4503599627370496) (10342848 # 1)), [Conc 57; Conc 9]) (* r304f 2621 4232 *);
   (Simple (Arr (1707989683533977 # 1125899906842624) (369977017106063 # 140737488355328) (6785669594742453 # 33554432)), [Conc 5; Conc 35]) (* r304b 2623 4233 *);
   (Simple (Arr (2958000 # 1) (5764607523034235 # 4503599627370496) (10342848 # 1)), [Conc 57; Conc 9]) (* r305f 2625 4234 *);
   (Simple (Arr (6561387943654875 # 268435456) (268409304307155 # 281474976710656) (6145735490481835 # 67108864)), [Conc 8; Conc 63]) (* r305b 2627 4235 *);
   (Simple (Arr (5787829208612863 # 2199023255552) (4818851601286431 # 2251799813685248) (4790166287810561 # 67108864)), [Conc 57; Conc 10]) (* r306f 2629 4236 *);
   (Simple (Arr (2041108107463919 # 281474976710656) (376451040152281 # 140737488355328) (4664021999167611 # 536870912)), [Conc 7; Conc 69]) (* r306b 2631 4237 *);
   (Plog [((1000 # 1), (Arr (789 # 500) (64 # 25) ((-3533390) # 1))); ((2500 # 1), (Arr (759 # 50) (57 # 25) ((-1222150) # 1))); ((10000 # 1), (Arr (3017 # 10) (48 # 25) (2502450 # 1))); ((100000 # 1), (Arr (7528 # 1) (31 # 20) (8811500 # 1))); ((1000000 # 1), (Arr (5101 # 1) (33 # 20) (14225600 # 1))); ((10000000 # 1), (Arr (1457 # 100) (49 # 20) (18731800 # 1)))], [Conc 57; Conc 10]) (* r307f 2658 4238 *);
   (Plog [((1000 # 1), (Arr (310107 # 50) (1527 # 800) (95372800 # 1))); ((2500 # 1), (Arr (298316 # 5) (1303 # 800) (97684100 # 1))); ((10000 # 1), (Arr (1185800 # 1) (203 # 160) (101409000 # 1))); ((100000 # 1), (Arr (29587900 # 1) (898749 # 1000000) (107718000 # 1))); ((1000000 # 1), (Arr (20048900 # 1) (998749 # 1000000) (113132000 # 1))); ((10000000 # 1), (Arr (286328 # 5) (1439 # 800) (117638000 # 1)))], [Conc 8; Conc 52]) (* r307b 2685 4239 *);
   (Plog [((1000 # 1), (Arr (4757 # 10) (42 # 25) ((-1379880) # 1))); ((2500 # 1), (Arr (4372 # 1) (7 # 5) (947676 # 1))); ((10000 # 1), (Arr (76480 # 1) (21 # 20) (4665160 # 1))); ((100000 # 1), (Arr (1277000 # 1) (73 # 100) (10790500 # 1))); ((1000000 # 1), (Arr (431200 # 1) (23 # 25) (15631400 # 1))); ((10000000 # 1), (Arr (825 # 1) (177 # 100) (19652200 # 1)))], [Conc 57; Conc 10]) (* r308f 2712 4240 *);
   (Plog [((1000 # 1), (Arr (873911 # 1000000) (251913 # 100000) (226534000 # 1))); ((2500 # 1), (Arr (803183 # 100000) (223913 # 100000) (228861000 # 1))); ((10000 # 1), (Arr (70251 # 500) (188913 # 100000) (232579000 # 1))); ((100000 # 1), (Arr (117299 # 50) (156913 # 100000) (238704000 # 1))); ((1000000 # 1), (Arr (19804 # 25) (175913 # 100000) (243545000 # 1))); ((10000000 # 1), (Arr (151561 # 100000) (260913 # 100000) (247566000 # 1)))], [Conc 5; Conc 11]) (* r308b 2739 4241 *);
   (Simple (Arr (10000 # 1) (2 # 1) (6738803687424001 # 268435456)), [Conc 57; Conc 25]) (* r309f 2741 4242 *);
   (Simple (Arr (716286237865253 # 8796093022208) (1485931000723111 # 562949953421312) (3647716085269407 # 33554432)), [Conc 5; Conc 41]) (* r309b 2742 4243 *);
   (Simple (Arr (100000000000 # 1) (0 # 1) (0 # 1)), [Conc 56; Conc 8]) (* r310f 2744 4244 *);
   (Simple (Arr (5725837098395265 # 128) ((-150794231220867) # 281474976710656) (3157825282064359 # 16777216)), [Conc 8; Conc 57]) (* r310b 2745 4245 *);
   (Simple (Arr (20000000000 # 1) (0 # 1) (0 # 1)), [Conc 56; Conc 10]) (* r311f 2747 4246 *);
   (Simple (Arr (35163612687604704 # 1) ((-83526258084377) # 70368744177664) (2408598131592463 # 8388608)), [Conc 8; Conc 52]) (* r311b 2748 4247 *);
   (Simple (Arr (10000000000 # 1) (0 # 1) (0 # 1)), [Conc 56; Conc 4]) (* r312f 2750 4248 *);
   (Simple (Arr (5491734131502375 # 16777216) (20339448790527 # 140737488355328) (5549028660050661 # 16777216)), [Conc 25; Conc 25]) (* r312b 2751 4249 *);
   (Plog [((100 # 1), (Arr (341000000000000000000000000000000000000000000000000000000000 # 1) ((-71) # 5) (350086000 # 1))); ((1000 # 1), (Arr (2620000000000000000000000000000000000000000000000000000000 # 1) ((-133) # 10) (356737000 # 1))); ((10000 # 1), (Arr (16500000000000000000000000000000000000000000000000000 # 1) ((-23) # 2) (354576000 # 1))); ((100000 # 1), (Arr (52300000000000000000000000000000000000000000 # 1) ((-89) # 10) (341024000 # 1))); ((1000000 # 1), (Arr (459000000000000000000000000000000 # 1) ((-28) # 5) (318245000 # 1))); ((10000000 # 1), (Arr (384000000000000000000 # 1) ((-103) # 50) (290644000 # 1)))], [Conc 60]) (* r313f 2778 4250 *);
   (Plog [((100 # 1), (Arr (12865700000000000000000000000000000000000000000000 # 1) ((-31081) # 2500) (299079000 # 1))); ((1000 # 1), (Arr (98850900000000000000000000000000000000000000000 # 1) ((-28831) # 2500) (305730000 # 1))); ((10000 # 1), (Arr (622535000000000000000000000000000000000000 # 1) ((-24331) # 2500) (303568000 # 1))); ((100000 # 1), (Arr (1973250000000000000000000000000000 # 1) ((-17831) # 2500) (290017000 # 1))); ((1000000 # 1), (Arr (17317800000000000000000 # 1) ((-9581) # 2500) (267238000 # 1))); ((10000000 # 1), (Arr (14488100000 # 1) ((-146199) # 500000) (239636000 # 1)))], [Conc 7; Conc 40]) (* r313b 2805 4251 *);
   (Plog [((100 # 1), (Arr (1200000000000000000000000000000000000000000000000000000 # 1) ((-129) # 10) (418424000 # 1))); ((1000 # 1), (Arr (518000000000000000000000000000000000000000000000000000000000 # 1) ((-14) # 1) (418008000 # 1))); ((10000 # 1), (Arr (1620000000000000000000000000000000000000000000000000000000000000000 # 1) ((-153) # 10) (440954000 # 1))); ((100000 # 1), (Arr (55500000000000000000000000000000000000000000000000000000000000000 # 1) ((-29) # 2) (444270000 # 1))); ((1000000 # 1), (Arr (15500000000000000000000000000000000000000000000000000000000 # 1) ((-123) # 10) (442533000 # 1))); ((10000000 # 1), (Arr (178000000000000000000000000000000000000000000000 # 1) ((-224) # 25) (422830000 # 1)))], [Conc 60]) (* r314f 2832 4252 *);
   (Plog [((100 # 1), (Arr (1556570000000000000000000000000000000000000 # 1) ((-56309) # 5000) (46481700 # 1))); ((1000 # 1), (Arr (671919000000000000000000000000000000000000000000 # 1) ((-61809) # 5000) (46066200 # 1))); ((10000 # 1), (Arr (2101370000000000000000000000000000000000000000000000000 # 1) ((-68309) # 5000) (69011700 # 1))); ((100000 # 1), (Arr (71991300000000000000000000000000000000000000000000000 # 1) ((-64309) # 5000) (72327500 # 1))); ((1000000 # 1), (Arr (20105700000000000000000000000000000000000000000 # 1) ((-53309) # 5000) (70591100 # 1))); ((10000000 # 1), (Arr (230891000000000000000000000000000000 # 1) ((-45761) # 6250) (50887900 # 1)))], [Conc 30; Conc 11]) (* r314b 2859 4253 *);
   (Plog [((100 # 1), (Arr (81000000000000000000000000000000000000000000000 # 1) ((-113) # 10) (464647000 # 1))); ((1000 # 1), (Arr (186000000000000000000000000000000000000000000000000000000 # 1) ((-27) # 2) (448685000 # 1))); ((10000 # 1), (Arr (4650000000000000000000000000000000000000000000000000000000000000 # 1) ((-15) # 1) (458662000 # 1))); ((100000 # 1), (Arr (446000000000000000000000000000000000000000000000000000000000000000 # 1) ((-149) # 10) (470051000 # 1))); ((1000000 # 1), (Arr (27900000000000000000000000000000000000000000000000000000000000 # 1) ((-67) # 5) (473128000 # 1))); ((10000000 # 1), (Arr (6170000000000000000000000000000000000000000000000000 # 1) ((-103) # 10) (459992000 # 1)))], [Conc 60]) (* r315f 2886 4254 *);
   (Plog [((100 # 1), (Arr (2481310000000000000000000000000000000 # 1) ((-495913) # 50000) (66798000 # 1))); ((1000 # 1), (Arr (5697820000000000000000000000000000000000000000 # 1) ((-121183) # 10000) (50836100 # 1))); ((10000 # 1), (Arr (142445000000000000000000000000000000000000000000000000 # 1) ((-136183) # 10000) (60812400 # 1))); ((100000 # 1), (Arr (13662500000000000000000000000000000000000000000000000000 # 1) ((-135183) # 10000) (72202100 # 1))); ((1000000 # 1), (Arr (854673000000000000000000000000000000000000000000000 # 1) ((-120183) # 10000) (75278200 # 1))); ((10000000 # 1), (Arr (189008000000000000000000000000000000000000 # 1) ((-445913) # 50000) (62142500 # 1)))], [Conc 10; Conc 42]) (* r315b 2913 4255 *);
   (Simple (Arr (15000000000 # 1) (0 # 1) (209827600 # 1)), [Conc 60; Conc 4]) (* r316f 2915 4256 *);
   (Simple (Arr (2235127109441037 # 268435456) (2055813060028039 # 4503599627370496) (7283464307716269 # 536870912)), [Conc 17; Conc 59]) (* r316b 2916 4257 *);
   (Simple (Arr (6185412613216665 # 70368744177664) (6034823500676465 # 2251799813685248) (12175440 # 1)), [Conc 60; Conc 8]) (* r317f 2918 4258 *);
   (Simple (Arr (4601037498218289 # 576460752303423488) (3937823787510235 # 1125899906842624) (5917889714591011 # 134217728)), [Conc 3; Conc 59]) (* r317b 2920 4259 *);
   (Simple (Arr (8511803295730237 # 9007199254740992) (7070651414971679 # 2251799813685248) (1221562599263437 # 33554432)), [Conc 60; Conc 8]) (* r318f 2922 4260 *);
   (Simple (Arr (158039524744659 # 4503599627370496) (1858250776198063 # 562949953421312) (4083366664076697 # 134217728)), [Conc 3; Conc 66]) (* r318b 2924 4261 *);
   (Simple (Arr (5045438957538509 # 70368744177664) (2859785763380265 # 1125899906842624) ((-6418256) # 1)), [Conc 60; Conc 10]) (* r319f 2926 4262 *);
   (Simple (Arr (2537943648965785 # 36028797018963968) (1832883128023893 # 562949953421312) (5924054024128609 # 67108864)), [Conc 7; Conc 59]) (* r319b 2928 4263 *);
   (Simple (Arr (6859237316368159 # 1180591620717411303424) (4818851601286431 # 1125899906842624) ((-14895040) # 1)), [Conc 60; Conc 10]) (* r320f 2930 4264 *);
   (Simple (Arr (2755915295561413 # 1180591620717411303424) (76337435963935 # 17592186044416) (5623759805662531 # 134217728)), [Conc 7; Conc 66]) (* r320b 2932 4265 *);
   (Simple (Arr (2644525230407001 # 75557863725914323419136) (2961116754996101 # 562949953421312) (8395538573977191 # 268435456)), [Conc 60; Conc 17]) (* r321f 2934 4266 *);
   (Simple (Arr (8871654511890127 # 9671406556917033397649408) (6161561444789131 # 1125899906842624) ((-8445037445650637) # 2147483648)), [Conc 18; Conc 59]) (* r321b 2936 4267 *);
   (Simple (Arr (782175005290665 # 1208925819614629174706176) (5967269506265907 # 1125899906842624) (1478760273333453 # 33554432)), [Conc 60; Conc 17]) (* r322f 2938 4268 *);
   (Simple (Arr (2095886967811107 # 302231454903657293676544) (5467361248801005 # 1125899906842624) ((-3897156587375781) # 134217728)), [Conc 18; Conc 66]) (* r322b 2940 4269 *);
   (Simple (Arr (2308094809027379 # 281474976710656) (2871044762448691 # 1125899906842624) (44978000 # 1)), [Conc 60; Conc 32]) (* r323f 2942 4270 *);
   (Simple (Arr (5903804826697053 # 1125899906842624) (154467116599481 # 70368744177664) ((-8856380247586541) # 137438953472)), [Conc 31; Conc 59]) (* r323b 2944 4271 *);
   (Simple (Arr (2500000000 # 1) (0 # 1) (6738803687424001 # 67108864)), [Conc 60; Conc 32]) (* r324f 2946 4272 *);
   (Simple (Arr (2677905771586855 # 4096) ((-4555228356473149) # 4503599627370496) (2345500042660879 # 134217728)), [Conc 31; Conc 66]) (* r324b 2947 4273 *);
   (Simple (Arr (145 # 1) (5561945539802563 # 2251799813685248) (3665184 # 1)), [Conc 60; Conc 9]) (* r325f 2949 4274 *);
   (Simple (Arr (8912215905050205 # 1152921504606846976) (7327702738943563 # 2251799813685248) (7980658243295293 # 268435456)), [Conc 10; Conc 59]) (* r325b 2951 4275 *);
   (Simple (Arr (3447327532494841 # 2361183241434822606848) (1331376639841403 # 281474976710656) (7225768 # 1)), [Conc 60; Conc 9]) (* r326f 2953 4276 *);
   (Simple (Arr (2405068563372181 # 75557863725914323419136) (2734574483337059 # 562949953421312) ((-4947127495096373) # 1073741824)), [Conc 10; Conc 66]) (* r326b 2955 4277 *);
   (Simple (Arr (2872215698351807 # 144115188075855872) (3794282686059643 # 1125899906842624) (31940656 # 1)), [Conc 60; Conc 11]) (* r327f 2957 4278 *);
   (Simple (Arr (3774716302797981 # 1152921504606846976) (1033251380827261 # 281474976710656) (2440998016877643 # 33554432)), [Conc 2; Conc 59]) (* r327b 2959 4279 *);
   (Simple (Arr (4692390523749867 # 2305843009213693952) (8038925334856335 # 2251799813685248) (8671717211766785 # 268435456)), [Conc 60; Conc 11]) (* r328f 2961 4280 *);
   (Simple (Arr (2462852689385281 # 18014398509481984) (1809474656207771 # 562949953421312) (1181558710219135 # 33554432)), [Conc 2; Conc 66]) (* r328b 2963 4281 *);
   (Simple (Arr (50000000 # 1) (0 # 1) (5840296529100801 # 134217728)), [Conc 60; Conc 42]) (* r329f 2965 4282 *);
   (Simple (Arr (322643420884443 # 16777216) (164193505321979 # 562949953421312) (2221790135554623 # 33554432)), [Conc 13; Conc 59]) (* r329b 2966 4283 *);
   (Plog [((100 # 1), (Arr (56900000000000000000000000000000000000000000000000000 # 1) ((-669) # 50) (188485000 # 1))); ((1000 # 1), (Arr (329000000000000000000000000000000000000000000000000000000 # 1) ((-353) # 25) (201372000 # 1))); ((10000 # 1), (Arr (8580000000000000000000000000000000000000000000000000000000 # 1) ((-354) # 25) (212309000 # 1))); ((100000 # 1), (Arr (53600000000000000000000000000000000000000000000000000000 # 1) ((-263) # 20) (217091000 # 1))); ((1000000 # 1), (Arr (1660000000000000000000000000000000000000000000000 # 1) ((-266) # 25) (210443000 # 1))); ((2000000 # 1), (Arr (826000000000000000000000000000000000000000000 # 1) ((-959) # 100) (205928000 # 1))); ((5000000 # 1), (Arr (10100000000000000000000000000000000000000 # 1) ((-403) # 50) (198485000 # 1))); ((10000000 # 1), (Arr (1100000000000000000000000000000000000 # 1) ((-171) # 25) (192041000 # 1)))], [Conc 59]) (* r330f 3001 4284 *);
   (Plog [((100 # 1), (Arr (35357300000000000000000000000000000000000000000000 # 1) ((-16619) # 1250) (84139400 # 1))); ((1000 # 1), (Arr (204439000000000000000000000000000000000000000000000000 # 1) ((-8772) # 625) (97026100 # 1))); ((10000 # 1), (Arr (5331560000000000000000000000000000000000000000000000000 # 1) ((-8797) # 625) (107963000 # 1))); ((100000 # 1), (Arr (33306700000000000000000000000000000000000000000000000 # 1) ((-32663) # 2500) (112745000 # 1))); ((1000000 # 1), (Arr (1031510000000000000000000000000000000000000000 # 1) ((-6597) # 625) (106097000 # 1))); ((2000000 # 1), (Arr (513272000000000000000000000000000000000000 # 1) ((-237631) # 25000) (101582000 # 1))); ((5000000 # 1), (Arr (6276080000000000000000000000000000000 # 1) ((-199381) # 25000) (94139100 # 1))); ((10000000 # 1), (Arr (683534000000000000000000000000000 # 1) ((-168881) # 25000) (87695800 # 1)))], [Conc 8; Conc 62]) (* r330b 3036 4285 *);
   (Plog [((100 # 1), (Arr (54000000000000000000000000000000000000000000000 # 1) ((-1163) # 100) (185447000 # 1))); ((1000 # 1), (Arr (1210000000000000000000000000000000000000000000000000 # 1) ((-251) # 20) (197652000 # 1))); ((10000 # 1), (Arr (2870000000000000000000000000000000000000000000000000000 # 1) ((-263) # 20) (212137000 # 1))); ((100000 # 1), (Arr (379000000000000000000000000000000000000000000000000000 # 1) ((-1251) # 100) (219911000 # 1))); ((1000000 # 1), (Arr (63300000000000000000000000000000000000000000000 # 1) ((-51) # 5) (215229000 # 1))); ((2000000 # 1), (Arr (38700000000000000000000000000000000000000000 # 1) ((-917) # 100) (211041000 # 1))); ((5000000 # 1), (Arr (508000000000000000000000000000000000000 # 1) ((-153) # 20) (203815000 # 1))); ((10000000 # 1), (Arr (51200000000000000000000000000000000 # 1) ((-641) # 100) (197409000 # 1)))], [Conc 59]) (* r331f 3071 4286 *);
   (Plog [((100 # 1), (Arr (1363840000000000000000000000000000000000000000 # 1) ((-30173) # 2500) (37337900 # 1))); ((1000 # 1), (Arr (30560100000000000000000000000000000000000000000000 # 1) ((-32473) # 2500) (49542600 # 1))); ((10000 # 1), (Arr (72485600000000000000000000000000000000000000000000000 # 1) ((-33973) # 2500) (64027600 # 1))); ((100000 # 1), (Arr (9572140000000000000000000000000000000000000000000000 # 1) ((-32373) # 2500) (71801500 # 1))); ((1000000 # 1), (Arr (1598720000000000000000000000000000000000000000 # 1) ((-13299) # 1250) (67119600 # 1))); ((2000000 # 1), (Arr (977419000000000000000000000000000000000000 # 1) ((-960923) # 100000) (62931400 # 1))); ((5000000 # 1), (Arr (12830200000000000000000000000000000000 # 1) ((-808923) # 100000) (55705600 # 1))); ((10000000 # 1), (Arr (1293120000000000000000000000000000 # 1) ((-684923) # 100000) (49299900 # 1)))], [Conc 8; Conc 65]) (* r331b 3106 4287 *);
   (Plog [((100 # 1), (Arr (5480000000000000000000000000000000000000000000 # 1) ((-1163) # 100) (185468000 # 1))); ((1000 # 1), (Arr (25400000000000000000000000000000000000000000000000 # 1) ((-1237) # 100) (194326000 # 1))); ((10000 # 1), (Arr (1650000000000000000000000000000000000000000000000000000 # 1) ((-67) # 5) (210581000 # 1))); ((100000 # 1), (Arr (18100000000000000000000000000000000000000000000000000000 # 1) ((-1331) # 100) (222304000 # 1))); ((1000000 # 1), (Arr (45800000000000000000000000000000000000000000000000 # 1) ((-283) # 25) (220555000 # 1))); ((2000000 # 1), (Arr (41100000000000000000000000000000000000000000000 # 1) ((-1033) # 100) (216873000 # 1))); ((5000000 # 1), (Arr (668000000000000000000000000000000000000000 # 1) ((-883) # 100) (210045000 # 1))); ((10000000 # 1), (Arr (65400000000000000000000000000000000000 # 1) ((-379) # 50) (203748000 # 1)))], [Conc 59]) (* r332f 3141 4288 *);
   (Plog [((100 # 1), (Arr (2241080000000000000000000000000000000000000000000 # 1) ((-61433) # 5000) (147570000 # 1))); ((1000 # 1), (Arr (10387500000000000000000000000000000000000000000000000 # 1) ((-65133) # 5000) (156428000 # 1))); ((10000 # 1), (Arr (674778000000000000000000000000000000000000000000000000000 # 1) ((-70283) # 5000) (172682000 # 1))); ((100000 # 1), (Arr (7402110000000000000000000000000000000000000000000000000000 # 1) ((-69833) # 5000) (184406000 # 1))); ((1000000 # 1), (Arr (18730200000000000000000000000000000000000000000000000 # 1) ((-59883) # 5000) (182657000 # 1))); ((2000000 # 1), (Arr (16808100000000000000000000000000000000000000000000 # 1) ((-54933) # 5000) (178975000 # 1))); ((5000000 # 1), (Arr (273183000000000000000000000000000000000000000 # 1) ((-948657) # 100000) (172147000 # 1))); ((10000000 # 1), (Arr (26745700000000000000000000000000000000000 # 1) ((-823657) # 100000) (165850000 # 1)))], [Conc 66]) (* r332b 3176 4289 *);
   (Plog [((1000 # 1), (Arr (526000000000000 # 1) ((-1637) # 1000) (3506190 # 1))); ((10000 # 1), (Arr (526000000000000 # 1) ((-1637) # 1000) (3506190 # 1))); ((100000 # 1), (Arr (528000000000000 # 1) ((-819) # 500) (3510380 # 1))); ((1000000 # 1), (Arr (1540000000000000 # 1) ((-1771) # 1000) (4686080 # 1))); ((10000000 # 1), (Arr (378000000000000000 # 1) ((-2429) # 1000) (12928600 # 1)))], [Conc 59; Conc 4]) (* r333f 3199 4290 *);
   (Plog [((1000 # 1), (Arr (479887000000000 # 1) ((-156657) # 100000) (104102000 # 1))); ((10000 # 1), (Arr (479887000000000 # 1) ((-156657) # 100000) (104102000 # 1))); ((100000 # 1), (Arr (481711000000000 # 1) ((-156757) # 100000) (104107000 # 1))); ((1000000 # 1), (Arr (1404990000000000 # 1) ((-170057) # 100000) (105282000 # 1))); ((10000000 # 1), (Arr (344862000000000000 # 1) ((-235857) # 100000) (113525000 # 1)))], [Conc 17; Conc 62]) (* r333b 3222 4291 *);
   (Plog [((1000 # 1), (Arr (64 # 125) (312 # 125) ((-1732180) # 1))); ((10000 # 1), (Arr (533 # 1000) (249 # 100) ((-1681970) # 1))); ((100000 # 1), (Arr (381 # 500) (1223 # 500) ((-1238460) # 1))); ((1000000 # 1), (Arr (223 # 25) (1073 # 500) (1966480 # 1))); ((10000000 # 1), (Arr (438 # 1) (1699 # 1000) (9748720 # 1)))], [Conc 59; Conc 4]) (* r334f 3245 4292 *);
   (Plog [((1000 # 1), (Arr (11866 # 625) (204243 # 100000) (55100200 # 1))); ((10000 # 1), (Arr (197643 # 10000) (203643 # 100000) (55150400 # 1))); ((100000 # 1), (Arr (3532 # 125) (199243 # 100000) (55593900 # 1))); ((1000000 # 1), (Arr (66153 # 200) (169243 # 100000) (58798800 # 1))); ((10000000 # 1), (Arr (81208 # 5) (124543 # 100000) (66581100 # 1)))], [Conc 17; Conc 65]) (* r334b 3268 4293 *);
   (Plog [((1000 # 1), (Arr (20500000000000000000000000000000000000000000000000000000000 # 1) ((-3199) # 250) (418526000 # 1))); ((10000 # 1), (Arr (3300000000000000000000000000000000000000000000000000 # 1) ((-5287) # 500) (410958000 # 1))); ((100000 # 1), (Arr (1310000000000000000000000000000000000000000 # 1) ((-7657) # 1000) (396060000 # 1))); ((1000000 # 1), (Arr (2160000000000000000000000000000000 # 1) ((-4989) # 1000) (380395000 # 1))); ((10000000 # 1), (Arr (94000000000000000000000000000 # 1) ((-3669) # 1000) (372471000 # 1)))], [Conc 70]) (* r335f 3291 4294 *);
   (Plog [((1000 # 1), (Arr (16975200000000000000000000000000000000000000000 # 1) ((-111823) # 10000) (61394600 # 1))); ((10000 # 1), (Arr (2732590000000000000000000000000000000000 # 1) ((-89603) # 10000) (53826200 # 1))); ((100000 # 1), (Arr (1084760000000000000000000000000 # 1) ((-60433) # 10000) (38928600 # 1))); ((1000000 # 1), (Arr (1788610000000000000000 # 1) ((-33753) # 10000) (23263300 # 1))); ((10000000 # 1), (Arr (77837500000000000 # 1) ((-20553) # 10000) (15340100 # 1)))], [Conc 11; Conc 49]) (* r335b 3314 4295 *);
   (Simple (Arr (125 # 1) (5591218937380471 # 2251799813685248) (1861880 # 1)), [Conc 70; Conc 10]) (* r336f 3316 4296 *);
   (Simple (Arr (987738052024455 # 4503599627370496) (107367729219563 # 35184372088832) (6466198755928775 # 67108864)), [Conc 7; Conc 71]) (* r336b 3318 4297 *);
   (Simple (Arr (980 # 1) (5471873547255153 # 2251799813685248) (21589440 # 1)), [Conc 70; Conc 8]) (* r337f 3320 4298 *);
   (Simple (Arr (5725744048723337 # 36028797018963968) (3490526184467861 # 1125899906842624) (447147739258271 # 8388608)), [Conc 3; Conc 71]) (* r337b 3322 4299 *);
   (Simple (Arr (513000000 # 1) (7602076171001397 # 36028797018963968) (5492125005250561 # 268435456)), [Conc 70; Conc 9]) (* r338f 3324 4300 *);
   (Simple (Arr (6712806077996667 # 137438953472) (477310426791337 # 562949953421312) (777175922155041 # 16777216)), [Conc 10; Conc 71]) (* r338b 3326 4301 *);
   (Simple (Arr (396000000 # 1) (0 # 1) (40936256 # 1)), [Conc 70; Conc 11]) (* r339f 3328 4302 *);
   (Simple (Arr (3898354194382803 # 33554432) (86450105458849 # 562949953421312) (5472154741828337 # 67108864)), [Conc 2; Conc 71]) (* r339b 3329 4303 *);
   (Simple (Arr (434000000 # 1) (0 # 1) (7255445303459841 # 268435456)), [Conc 70; Conc 20]) (* r340f 3331 4304 *);
   (Simple (Arr (5316545757043193 # 137438953472) (565051806124801 # 562949953421312) (1068292116067741 # 16777216)), [Conc 21; Conc 71]) (* r340b 3332 4305 *);
   (Simple (Arr (60300000000 # 1) (0 # 1) (202924000 # 1)), [Conc 70; Conc 4]) (* r341f 3334 4306 *);
   (Simple (Arr (4011688721158641 # 67108864) (1392522554700181 # 4503599627370496) (3468915968230101 # 536870912)), [Conc 17; Conc 71]) (* r341b 3335 4307 *);
   (Simple (Arr (17000000000 # 1) (0 # 1) (85604640 # 1)), [Conc 70; Conc 17]) (* r342f 3337 4308 *);
   (Simple (Arr (3337449492059089 # 4194304) (36752654232921 # 562949953421312) (3368512290932831 # 67108864)), [Conc 18; Conc 71]) (* r342b 3338 4309 *);
   (Simple (Arr (17000000000 # 1) (0 # 1) (85604640 # 1)), [Conc 70; Conc 32]) (* r343f 3340 4310 *);
   (Simple (Arr (5089394769568101 # 262144) ((-141348380797071) # 281474976710656) (1354278732596963 # 33554432)), [Conc 31; Conc 71]) (* r343b 3341 4311 *);
   (Simple (Arr (4953959590107545 # 281474976710656) (5584463537939415 # 2251799813685248) (6884811100651521 # 268435456)), [Conc 52; Conc 11]) (* r344f 3343 4312 *);
   (Simple (Arr (4368146530181367 # 262144) (348649980626169 # 281474976710656) (1360656879662955 # 8388608)), [Conc 71]) (* r344b 3345 4313 *);
   (Simple (Arr (18100000000 # 1) (0 # 1) (0 # 1)), [Conc 41; Conc 25]) (* r345f 3347 4314 *);
   (Simple (Arr (9384729297159631333752832 # 1) ((-168842486629699) # 70368744177664) (7217718423882819 # 16777216)), [Conc 48]) (* r345b 3348 4315 *);
   (Simple (Arr (13400000000 # 1) (0 # 1) (13807200 # 1)), [Conc 48; Conc 8]) (* r346f 3350 4316 *);
   (Simple (Arr (250137908024459 # 16777216) (395915967611423 # 562949953421312) (3138663639827261 # 33554432)), [Conc 3; Conc 47]) (* r346b 3351 4317 *);
   (Simple (Arr (5940000000 # 1) (0 # 1) (7815712 # 1)), [Conc 48; Conc 9]) (* r347f 3353 4318 *);
   (Simple (Arr (8332818705882889 # 2147483648) (377149248810705 # 562949953421312) (5482578642342385 # 67108864)), [Conc 10; Conc 47]) (* r347b 3354 4319 *);
   (Simple (Arr (9240 # 1) (3 # 2) ((-4321819431534593) # 1073741824)), [Conc 48; Conc 10]) (* r348f 3356 4320 *);
   (Simple (Arr (7827489526845913 # 70368744177664) (73945320343199 # 35184372088832) (4646769520558617 # 33554432)), [Conc 7; Conc 47]) (* r348b 3357 4321 *);
   (Simple (Arr (10050000000 # 1) (0 # 1) (5713943959961601 # 33554432)), [Conc 48; Conc 4]) (* r349f 3359 4322 *);
   (Simple (Arr (2293742741885689 # 33554432) (770746326114665 # 2251799813685248) (5863623795918385 # 268435456)), [Conc 17; Conc 47]) (* r349b 3360 4323 *);
   (Simple (Arr (3010000000 # 1) (0 # 1) (49873280 # 1)), [Conc 48; Conc 17]) (* r350f 3362 4324 *);
   (Simple (Arr (8108882319895935 # 8388608) (27686958212009 # 281474976710656) (8386047927042883 # 134217728)), [Conc 18; Conc 47]) (* r350b 3363 4325 *);
   (Simple (Arr (2608 # 1) (8016407336719483 # 4503599627370496) (24731624 # 1)), [Conc 48; Conc 11]) (* r351f 3365 4326 *);
   (Simple (Arr (5772213118344201 # 1099511627776) (1107122284740009 # 562949953421312) (1901770737033497 # 16777216)), [Conc 2; Conc 47]) (* r351b 3367 4327 *);
   (Simple (Arr (1740000000 # 1) (0 # 1) (4739625260154881 # 134217728)), [Conc 48; Conc 41]) (* r352f 3369 4328 *);
   (Simple (Arr (1398558366167263 # 131072) (12536116394585 # 140737488355328) (4887189407241679 # 33554432)), [Conc 40; Conc 47]) (* r352b 3370 4329 *);
   (Simple (Arr (1000000000 # 1) (0 # 1) (13807200 # 1)), [Conc 48; Conc 20]) (* r353f 3372 4330 *);
   (Simple (Arr (1313283773964651 # 2147483648) (145918267079015 # 140737488355328) (6608295296790493 # 67108864)), [Conc 21; Conc 47]) (* r353b 3373 4331 *);
   (Simple (Arr (3010000000 # 1) (0 # 1) (49873280 # 1)), [Conc 48; Conc 32]) (* r354f 3375 4332 *);
   (Simple (Arr (1545690180634683 # 65536) ((-528150998806083) # 1125899906842624) (7066138275565063 # 134217728)), [Conc 31; Conc 47]) (* r354b 3376 4333 *);
   (Simple (Arr (151000000 # 1) (0 # 1) (20125040 # 1)), [Conc 41; Conc 5]) (* r355f 3378 4334 *);
   (Simple (Arr (3720416774435399794688 # 1) ((-332756102647121) # 140737488355328) (1366178168209763 # 8388608)), [Conc 47]) (* r355b 3379 4335 *);
   (Simple (Arr (18100000000 # 1) (0 # 1) (0 # 1)), [Conc 42; Conc 25]) (* r356f 3381 4336 *);
   (Simple (Arr (541913141035494732201984 # 1) ((-32294352998973) # 17592186044416) (5936300767384853 # 16777216)), [Conc 68]) (* r356b 3382 4337 *);
   (Simple (Arr (40000000000 # 1) (0 # 1) (17572800 # 1)), [Conc 68; Conc 8]) (* r357f 3384 4338 *);
   (Simple (Arr (6135333077557895 # 274877906944) (734194203424761 # 562949953421312) (1302825736845709 # 16777216)), [Conc 3; Conc 67]) (* r357b 3385 4339 *);
   (Simple (Arr (5000000000 # 1) (0 # 1) (8041639066992641 # 1073741824)), [Conc 68; Conc 9]) (* r358f 3387 4340 *);
   (Simple (Arr (3602126400295797 # 2199023255552) (178856871156005 # 140737488355328) (8283896119616307 # 134217728)), [Conc 10; Conc 67]) (* r358b 3388 4341 *);
   (Simple (Arr (26900000 # 1) (3422735716801577 # 4503599627370496) ((-1422560) # 1)), [Conc 68; Conc 10]) (* r359f 3390 4342 *);
   (Simple (Arr (5714211456019499 # 35184372088832) (276205098943183 # 140737488355328) (2037364224866555 # 16777216)), [Conc 7; Conc 67]) (* r359b 3392 4343 *);
   (Simple (Arr (2608 # 1) (8016407336719483 # 4503599627370496) (24731624 # 1)), [Conc 68; Conc 11]) (* r360f 3394 4344 *);
   (Simple (Arr (2964324977032233 # 1125899906842624) (1445400520553313 # 562949953421312) (3144176738791949 # 33554432)), [Conc 2; Conc 67]) (* r360b 3396 4345 *);
   (Simple (Arr (2800000000 # 1) (0 # 1) (56902400 # 1)), [Conc 68; Conc 17]) (* r361f 3398 4346 *);
   (Simple (Arr (3873789247689183 # 8589934592) (196826076118685 # 281474976710656) (6692021502182091 # 134217728)), [Conc 18; Conc 67]) (* r361b 3399 4347 *);
   (Simple (Arr (1000000000 # 1) (0 # 1) (13807200 # 1)), [Conc 68; Conc 20]) (* r362f 3401 4348 *);
   (Simple (Arr (2697752015233767 # 8796093022208) (921951304129395 # 562949953421312) (5289565826240373 # 67108864)), [Conc 21; Conc 67]) (* r362b 3402 4349 *);
   (Simple (Arr (3010000000 # 1) (0 # 1) (49873280 # 1)), [Conc 68; Conc 32]) (* r363f 3404 4350 *);
   (Simple (Arr (1587581024909243 # 134217728) (148405472820561 # 1125899906842624) (8857358668929701 # 268435456)), [Conc 31; Conc 67]) (* r363b 3405 4351 *);
   (Simple (Arr (1000000000 # 1) (0 # 1) (33472000 # 1)), [Conc 68; Conc 42]) (* r364f 3407 4352 *);
   (Simple (Arr (634474185404891 # 268435456) (438181690160655 # 562949953421312) (1414961823563771 # 16777216)), [Conc 13; Conc 67]) (* r364b 3408 4353 *);
   (Simple (Arr (602600000 # 1) (0 # 1) (13807200 # 1)), [Conc 68; Conc 66]) (* r365f 3410 4354 *);
   (Simple (Arr (2489047295491557 # 274877906944) (321803140484905 # 281474976710656) (5360039675593063 # 67108864)), [Conc 60; Conc 67]) (* r365b 3411 4355 *);
   (Simple (Arr (3010000000 # 1) (0 # 1) (49873280 # 1)), [Conc 68; Conc 51]) (* r366f 3413 4356 *);
   (Simple (Arr (6965730806327481 # 274877906944) (2605561380416261 # 2251799813685248) (3736878909782929 # 134217728)), [Conc 50; Conc 67]) (* r366b 3414 4357 *);
   (Simple (Arr (10050000000 # 1) (0 # 1) (5713943959961601 # 33554432)), [Conc 68; Conc 4]) (* r367f 3416 4358 *);
   (Simple (Arr (4711814176818313 # 137438953472) (4247718538735813 # 4503599627370496) (2354823654872073 # 1073741824)), [Conc 17; Conc 67]) (* r367b 3417 4359 *);
   (Simple (Arr (3010000000 # 1) (0 # 1) (49873280 # 1)), [Conc 68; Conc 55]) (* r368f 3419 4360 *);
   (Simple (Arr (7542284453210783 # 2147483648) (318526934389915 # 562949953421312) (7488646089835091 # 134217728)), [Conc 54; Conc 67]) (* r368b 3420 4361 *);
   (Simple (Arr (1700000000 # 1) (0 # 1) (4739625260154881 # 134217728)), [Conc 68; Conc 41]) (* r369f 3422 4362 *);
   (Simple (Arr (175429947398877 # 33554432) (48552837673955 # 70368744177664) (8455649343933273 # 67108864)), [Conc 40; Conc 67]) (* r369b 3423 4363 *);
   (Simple (Arr (151000000 # 1) (0 # 1) (20125040 # 1)), [Conc 42; Conc 5]) (* r370f 3425 4364 *);
   (Simple (Arr (107741501996675920 # 1) ((-1350851155409431) # 1125899906842624) (8970050498272287 # 134217728)), [Conc 67]) (* r370b 3426 4365 *);
   (Falloff (Arr (7520000000000 # 1) (0 # 1) (6007362703851521 # 33554432)) (Arr (4380000000000000000000 # 1) ((-7070651414971679) # 4503599627370496) (350995760 # 1)) [Decay (2458965396544291 # 4503599627370496) (178405961588245 # 178405961588244985132285746181186892047843328); Decay (8178536923304821 # 18014398509481984) (2510 # 1)] 38, [Conc 1]) (* r371f 3433 4366 *);
   (Falloff (Arr (1327833330061207 # 274877906944) (208623410084289 # 281474976710656) ((-184430182199905) # 1048576)) (Arr (5762221554876887 # 2048) ((-3732676853623055) # 4503599627370496) ((-1053321384321289) # 268435456)) [Decay (2458965396544291 # 4503599627370496) (178405961588245 # 178405961588244985132285746181186892047843328); Decay (8178536923304821 # 18014398509481984) (2510 # 1)] 38, [Conc 20; Conc 11]) (* r371b 3439 4367 *);
   (Simple (Arr (6324 # 1) (2 # 1) ((-731946393849037) # 268435456)), [Conc 1; Conc 10]) (* r372f 3441 4368 *);
   (Simple (Arr (1270778877280119 # 281474976710656) (1489540672535657 # 562949953421312) (2986664099418969 # 33554432)), [Conc 7; Conc 14]) (* r372b 3442 4369 *);
   (Simple (Arr (7721 # 1) (588282701325271 # 281474976710656) (14158656 # 1)), [Conc 1; Conc 8]) (* r373f 3444 4370 *);
   (Simple (Arr (4588658658838483 # 9007199254740992) (1597421940595791 # 562949953421312) (2893575134272541 # 67108864)), [Conc 3; Conc 14]) (* r373b 3446 4371 *);
   (Simple (Arr (775000 # 1) (6124895493223875 # 4503599627370496) (9414000 # 1)), [Conc 1; Conc 9]) (* r374f 3448 4372 *);
   (Simple (Arr (1056318147022033 # 35184372088832) (1167701755797533 # 562949953421312) (2182499976079245 # 67108864)), [Conc 10; Conc 14]) (* r374b 3450 4373 *);
   (Simple (Arr (7809241753860439 # 9007199254740992) (1694479359798149 # 562949953421312) (6789344715079681 # 134217728)), [Conc 1; Conc 17]) (* r375f 3452 4374 *);
   (Simple (Arr (2379584125783031 # 144115188075855872) (887396923278001 # 281474976710656) (3333676792077561 # 268435456)), [Conc 18; Conc 14]) (* r375b 3454 4375 *);
   (Simple (Arr (5620492334958379 # 18014398509481984) (3512807709348987 # 1125899906842624) (7407068386426881 # 134217728)), [Conc 1; Conc 32]) (* r376f 3456 4376 *);
   (Simple (Arr (5223336296859723 # 36028797018963968) (3034537851210577 # 1125899906842624) (7717219327265815 # 1073741824)), [Conc 31; Conc 14]) (* r376b 3458 4377 *);
   (Simple (Arr (1746897809343139 # 1208925819614629174706176) (1612851616552059 # 281474976710656) (23848800 # 1)), [Conc 1; Conc 11]) (* r377f 3460 4378 *);
   (Simple (Arr (3336491613762237 # 19342813113834066795298816) (3355715171088003 # 562949953421312) (2070249837047043 # 33554432)), [Conc 2; Conc 14]) (* r377b 3462 4379 *);
   (Simple (Arr (41000000000 # 1) (0 # 1) (6304993200046081 # 33554432)), [Conc 1; Conc 4]) (* r378f 3464 4380 *);
   (Simple (Arr (4439357297014577 # 268435456) (435254303725279 # 1125899906842624) ((-6074668233115209) # 536870912)), [Conc 17; Conc 14]) (* r378b 3465 4381 *);
   (Simple (Arr (602000000 # 1) (0 # 1) (17045616 # 1)), [Conc 1; Conc 20]) (* r379f 3467 4382 *);
   (Simple (Arr (6001124685601161 # 274877906944) (608613638649919 # 562949953421312) (1709141878710973 # 33554432)), [Conc 21; Conc 14]) (* r379b 3468 4383 *);
   (Simple (Arr (5000000000 # 1) (0 # 1) (74014960 # 1)), [Conc 1; Conc 19]) (* r380f 3470 4384 *);
   (Simple (Arr (5185908852217081 # 524288) ((-1154859473035921) # 2251799813685248) (7834836300412667 # 268435456)), [Conc 34; Conc 14]) (* r380b 3471 4385 *);
   (Simple (Arr (177 # 4) (5854679515581645 # 2251799813685248) (58199440 # 1)), [Conc 1; Conc 26]) (* r381f 3473 4386 *);
   (Simple (Arr (2796599167011617 # 8796093022208) (4512358640234779 # 2251799813685248) (3412028706074093 # 134217728)), [Conc 33; Conc 14]) (* r381b 3475 4387 *);
   (Simple (Arr (10000000000 # 1) (0 # 1) (74014960 # 1)), [Conc 1; Conc 58]) (* r382f 3477 4388 *);
   (Simple (Arr (8012191866482609 # 1073741824) (30762881129481 # 35184372088832) (2263639733517249 # 16777216)), [Conc 27; Conc 14]) (* r382b 3478 4389 *);
   (Simple (Arr (16000000000000 # 1) (0 # 1) (106692000 # 1)), [Conc 14]) (* r383f 3480 4390 *);
   (Simple (Arr (2880436764375879 # 137438953472) (691752884928105 # 562949953421312) (553228702315855 # 8388608)), [Conc 11; Conc 12]) (* r383b 3481 4391 *);
   (Simple (Arr (24100000000 # 1) (0 # 1) (0 # 1)), [Conc 14; Conc 20]) (* r384f 3483 4392 *);
   (Simple (Arr (6441241793358021 # 131072) (8578314523749 # 17592186044416) (658878367785501 # 2097152)), [Conc 12; Conc 1]) (* r384b 3484 4393 *);
   (Simple (Arr (3090595244283003 # 562949953421312) (3152519739159347 # 1125899906842624) (24526608 # 1)), [Conc 14; Conc 12]) (* r385f 3486 4394 *);
   (Simple (Arr (1314693589608807 # 4398046511104) (2700830758234187 # 1125899906842624) (3938980732021941 # 67108864)), [Conc 25; Conc 1]) (* r385b 3488 4395 *);
   (Simple (Arr (1260000000 # 1) (0 # 1) (4772757711618049 # 134217728)), [Conc 14; Conc 62]) (* r386f 3490 4396 *);
   (Simple (Arr (6133681066010237 # 524288) ((-12212357193003) # 140737488355328) (8704773763057103 # 134217728)), [Conc 49; Conc 1]) (* r386b 3491 4397 *);
   (Simple (Arr (2000000000 # 1) (0 # 1) (0 # 1)), [Conc 14; Conc 4]) (* r387f 3493 4398 *);
   (Simple (Arr (4144267122328485232640 # 1) ((-318497082634455) # 140737488355328) (334166449686385 # 2097152)), [Conc 19]) (* r387b 3494 4399 *);
   (Simple (Arr (1000000000 # 1) (0 # 1) (48785440 # 1)), [Conc 19; Conc 12]) (* r388f 3496 4400 *);
   (Simple (Arr (3529614503545689 # 32768) ((-1029118717443623) # 1125899906842624) (5117225160012653 # 134217728)), [Conc 25; Conc 34]) (* r388b 3497 4401 *);
   (Simple (Arr (2800000000 # 1) (0 # 1) (56902400 # 1)), [Conc 19; Conc 62]) (* r389f 3499 4402 *);
   (Simple (Arr (3370572295365901 # 65536) ((-337564297031287) # 562949953421312) (5552625278181357 # 134217728)), [Conc 49; Conc 34]) (* r389b 3500 4403 *);
   (Simple (Arr (154700000000000000000 # 1) ((-9) # 2) (0 # 1)), [Conc 19; Conc 19]) (* r390 3502 4404 *);
   (Simple (Arr (20000000000 # 1) (0 # 1) (0 # 1)), [Conc 22; Conc 10]) (* r391f 3503 4405 *);
   (Simple (Arr (21999675972949616099328 # 1) ((-299782660648109) # 140737488355328) (1610390210731289 # 8388608)), [Conc 34]) (* r391b 3504 4406 *);
   (Simple (Arr (100000000 # 1) (0 # 1) (33304640 # 1)), [Conc 20; Conc 12]) (* r392f 3506 4407 *);
   (Simple (Arr (2234784316894600192 # 1) ((-872567448357181) # 562949953421312) (3089514992942823 # 33554432)), [Conc 22]) (* r392b 3507 4408 *);
   (Simple (Arr (50000000 # 1) (0 # 1) (2092000 # 1)), [Conc 22; Conc 4]) (* r393f 3509 4409 *);
   (Simple (Arr (2492952310072677 # 4294967296) (47571999402429 # 70368744177664) (3490254961833547 # 16777216)), [Conc 17; Conc 37]) (* r393b 3510 4410 *);
   (Simple (Arr (10000000000 # 1) (0 # 1) (8803123883671553 # 268435456)), [Conc 37; Conc 8]) (* r394f 3512 4411 *);
   (Simple (Arr (2529481446721231 # 2) ((-6072616149071) # 8796093022208) (4267144719523425 # 134217728)), [Conc 22]) (* r394b 3513 4412 *);
   (Simple (Arr (60000000000 # 1) (0 # 1) (90290720 # 1)), [Conc 19]) (* r395f 3515 4413 *);
   (Simple (Arr (2138402375611081 # 512) ((-1031325650692503) # 1125899906842624) (6313797733847311 # 134217728)), [Conc 16]) (* r395b 3516 4414 *);
   (Simple (Arr (15000000000000 # 1) (0 # 1) (5829065189621761 # 67108864)), [Conc 16]) (* r396 3518 4415 *);
   (Simple (Arr (700000000 # 1) (0 # 1) (0 # 1)), [Conc 16; Conc 4]) (* r397f 3519 4416 *);
   (Simple (Arr (101037222245024284672 # 1) ((-265558042119249) # 140737488355328) (1324550645749985 # 8388608)), [Conc 15]) (* r397b 3520 4417 *);
   (Simple (Arr (40000000000 # 1) (0 # 1) (77738720 # 1)), [Conc 15]) (* r398f 3522 4418 *);
   (Simple (Arr (3575387660004127 # 4398046511104) (151011876050135 # 140737488355328) (8181757816562195 # 33554432)), [Conc 10; Conc 24]) (* r398b 3523 4419 *);
   (Simple (Arr (20000000000000000 # 1) (0 # 1) (169452000 # 1)), [Conc 24]) (* r399f 3525 4420 *);
   (Simple (Arr (2607057507930313 # 549755813888) (5409421029205729 # 2251799813685248) ((-5408630602577667) # 268435456)), [Conc 10; Conc 23]) (* r399b 3526 4421 *);
   (Simple (Arr (125000000 # 1) (0 # 1) (49789600 # 1)), [Conc 12; Conc 58]) (* r400f 3528 4422 *);
   (Simple (Arr (108833142715746871148544 # 1) ((-1585473959916117) # 562949953421312) (2351403950397261 # 16777216)), [Conc 23]) (* r400b 3529 4423 *);
   (Simple (Arr (100000000000 # 1) (0 # 1) (58576000 # 1)), [Conc 23]) (* r401f 3531 4424 *);
   (Simple (Arr (8171425434115307 # 268435456) (23220846530085 # 35184372088832) (5252683626601651 # 67108864)), [Conc 29]) (* r401b 3532 4425 *);
   (Simple (Arr (150000000 # 1) (0 # 1) (20083200 # 1)), [Conc 28; Conc 5]) (* r402f 3534 4426 *);
   (Simple (Arr (54182757251501408256 # 1) ((-74891418934085) # 35184372088832) (5602710974938953 # 67108864)), [Conc 29]) (* r402b 3535 4427 *);
   (Simple (Arr (150000000 # 1) (0 # 1) (149452480 # 1)), [Conc 30; Conc 6]) (* r403f 3537 4428 *);
   (Simple (Arr (767980654386627712 # 1) ((-248329992316193) # 140737488355328) (5976693694230285 # 67108864)), [Conc 29]) (* r403b 3538 4429 *);
   (Simple (Arr (100000000000 # 1) (0 # 1) (0 # 1)), [Conc 38; Conc 8]) (* r404f 3540 4430 *);
   (Simple (Arr (8393956581364215 # 32) (71662468003567 # 140737488355328) (3551243670265759 # 8388608)), [Conc 37]) (* r404b 3541 4431 *);
   (Simple (Arr (100000000000 # 1) (0 # 1) (0 # 1)), [Conc 44; Conc 8]) (* r405f 3543 4432 *);
   (Simple (Arr (6330829713371498 # 1) (12668419649 # 140737488355328) (7043437786650515 # 16777216)), [Conc 37]) (* r405b 3544 4433 *);
   (Falloff (Arr (6143000000000000211101015737130524396825764628808224210944 # 1) ((-1698701484448809) # 140737488355328) (5292768729497601 # 16777216)) (Arr (100000000000000 # 1) (0 # 1) (261500000 # 1)) [Decay (990791918021509 # 4503599627370496) (8280000000 # 1); Decay (3512807709348987 # 4503599627370496) (3860605227447091 # 8796093022208); Grow (1 # 1) (670000000 # 1)] 39, [Conc 37]) (* r406f 3552 4434 *);
   (Falloff (Arr (6692783624184196082057075666713578863731933184 # 1) ((-1436768559347385) # 140737488355328) (1081493006168899 # 4194304)) (Arr (7666657637745021 # 70368744177664) (16370807818839 # 8796093022208) (6840890558355991 # 33554432)) [Decay (990791918021509 # 4503599627370496) (8280000000 # 1); Decay (3512807709348987 # 4503599627370496) (3860605227447091 # 8796093022208); Grow (1 # 1) (670000000 # 1)] 39, [Conc 5; Conc 21]) (* r406b 3558 4435 *);
   (Simple (Arr (30000000000 # 1) (0 # 1) (0 # 1)), [Conc 20; Conc 25]) (* r407f 3560 4436 *);
   (Simple (Arr (354366147204049076224 # 1) ((-120943528634169) # 140737488355328) (901278547852071 # 2097152)), [Conc 37]) (* r407b 3561 4437 *);
   (Simple (Arr (10000000000 # 1) (0 # 1) (0 # 1)), [Conc 11; Conc 58]) (* r408f 3563 4438 *);
   (Simple (Arr (2416166106451643727872 # 1) ((-199717259479253) # 140737488355328) (3240277427741753 # 8388608)), [Conc 37]) (* r408b 3564 4439 *);
   (Simple (Arr (10000000000 # 1) (0 # 1) (6977469651353601 # 33554432)), [Conc 37; Conc 4]) (* r409f 3566 4440 *);
   (Simple (Arr (3890853434159987 # 16777216) ((-129953791977589) # 9007199254740992) ((-7446277619269779) # 1073741824)), [Conc 17; Conc 44]) (* r409b 3567 4441 *);
   (Simple (Arr (20500000000 # 1) (0 # 1) (217568000 # 1)), [Conc 37; Conc 4]) (* r410f 3569 4442 *);
   (Simple (Arr (6015789705349505 # 524288) ((-4715540965347107) # 9007199254740992) ((-1785233493874789) # 2147483648)), [Conc 17; Conc 38]) (* r410b 3570 4443 *);
   (Simple (Arr (8686141859430399 # 549755813888) (8106479329266893 # 4503599627370496) (3907856 # 1)), [Conc 37; Conc 10]) (* r411f 3572 4444 *);
   (Simple (Arr (2852225444520653 # 4398046511104) (1151201417990153 # 562949953421312) (1341888712363917 # 16777216)), [Conc 7; Conc 44]) (* r411b 3574 4445 *);
   (Simple (Arr (5270000 # 1) (4368491638549381 # 4503599627370496) (7125161765502977 # 1073741824)), [Conc 37; Conc 10]) (* r412f 3576 4446 *);
   (Simple (Arr (700698737631179 # 134217728) (397353758314779 # 562949953421312) (5314427467440017 # 67108864)), [Conc 7; Conc 38]) (* r412b 3578 4447 *);
   (Simple (Arr (5426837550981447 # 1125899906842624) (5854679515581645 # 2251799813685248) (58199440 # 1)), [Conc 37; Conc 17]) (* r413f 3580 4448 *);
   (Simple (Arr (5942205198281925 # 1125899906842624) (5272940407167989 # 2251799813685248) (586866839271257 # 134217728)), [Conc 18; Conc 44]) (* r413b 3582 4449 *);
   (Simple (Arr (1674776111428403 # 70368744177664) (2871044762448691 # 1125899906842624) (68994160 # 1)), [Conc 37; Conc 17]) (* r414f 3584 4450 *);
   (Simple (Arr (345773338665941 # 549755813888) (4013953623141201 # 2251799813685248) (6253252804077771 # 536870912)), [Conc 18; Conc 38]) (* r414b 3586 4451 *);
   (Simple (Arr (4846647255236607 # 17592186044416) (2758454771764429 # 1125899906842624) (6356938145136641 # 536870912)), [Conc 37; Conc 9]) (* r415f 3588 4452 *);
   (Simple (Arr (345432531149715 # 562949953421312) (6222271764661727 # 2251799813685248) (5177370695381003 # 268435456)), [Conc 10; Conc 44]) (* r415b 3590 4453 *);
   (Simple (Arr (980 # 1) (5471873547255153 # 2251799813685248) (5334886252544001 # 268435456)), [Conc 37; Conc 9]) (* r416f 3592 4454 *);
   (Simple (Arr (7413983377225249 # 140737488355328) (314427435940345 # 140737488355328) (1597248753315161 # 67108864)), [Conc 10; Conc 38]) (* r416b 3594 4455 *);
   (Simple (Arr (650 # 1) (5404319552844595 # 2251799813685248) (18706664 # 1)), [Conc 37; Conc 8]) (* r417f 3596 4456 *);
   (Simple (Arr (2776285855881049 # 1125899906842624) (773093581147559 # 281474976710656) (8591100239741417 # 268435456)), [Conc 3; Conc 44]) (* r417b 3598 4457 *);
   (Simple (Arr (5849401859768319 # 8796093022208) (2859785763380265 # 1125899906842624) (28267104 # 1)), [Conc 37; Conc 8]) (* r418f 3600 4458 *);
   (Simple (Arr (4284462820015757 # 70368744177664) (2676801914876995 # 1125899906842624) (5106334224302995 # 134217728)), [Conc 3; Conc 38]) (* r418b 3602 4459 *);
   (Simple (Arr (6963645887825355 # 9223372036854775808) (3895613677675479 # 1125899906842624) (22932504 # 1)), [Conc 37; Conc 11]) (* r419f 3604 4460 *);
   (Simple (Arr (2987086927733149 # 576460752303423488) (3704139025920603 # 1125899906842624) (3027996365766235 # 67108864)), [Conc 2; Conc 44]) (* r419b 3606 4461 *);
   (Simple (Arr (8337928321316717 # 18446744073709551616) (8219069319951155 # 2251799813685248) (8034900263305217 # 268435456)), [Conc 37; Conc 11]) (* r420f 3608 4462 *);
   (Simple (Arr (5395022364665699 # 72057594037927936) (836215402887355 # 281474976710656) (3261548923953075 # 67108864)), [Conc 2; Conc 38]) (* r420b 3610 4463 *);
   (Simple (Arr (548000000 # 1) (0 # 1) (20920000 # 1)), [Conc 37; Conc 20]) (* r421f 3612 4464 *);
   (Simple (Arr (4907557018911161 # 4294967296) (95716093697155 # 140737488355328) (82102423177551 # 2097152)), [Conc 21; Conc 44]) (* r421b 3613 4465 *);
   (Simple (Arr (217000000 # 1) (0 # 1) (27020272 # 1)), [Conc 37; Conc 20]) (* r422f 3615 4466 *);
   (Simple (Arr (366419393733921 # 33554432) (48132588226479 # 281474976710656) (5600923300337287 # 134217728)), [Conc 21; Conc 38]) (* r422b 3616 4467 *);
   (Simple (Arr (5426837550981447 # 1125899906842624) (5854679515581645 # 2251799813685248) (58199440 # 1)), [Conc 37; Conc 32]) (* r423f 3618 4468 *);
   (Simple (Arr (2265369717788479 # 17592186044416) (7990285487719453 # 4503599627370496) ((-366521406103287) # 67108864)), [Conc 31; Conc 44]) (* r423b 3620 4469 *);
   (Simple (Arr (1674776111428403 # 70368744177664) (2871044762448691 # 1125899906842624) (68994160 # 1)), [Conc 37; Conc 32]) (* r424f 3622 4470 *);
   (Simple (Arr (8436511895445975 # 549755813888) (2736155959832883 # 2251799813685248) (3894456792666351 # 2147483648)), [Conc 31; Conc 38]) (* r424b 3624 4471 *);
   (Simple (Arr (5937362789990399 # 1099511627776) (4278419646001971 # 2251799813685248) (4776127113461761 # 67108864)), [Conc 37; Conc 25]) (* r425f 3626 4472 *);
   (Simple (Arr (6269455355337591 # 1099511627776) (534850069051149 # 281474976710656) (2864174914826701 # 134217728)), [Conc 12; Conc 44]) (* r425b 3628 4473 *);
   (Simple (Arr (205 # 2) (5 # 2) (77111120 # 1)), [Conc 37; Conc 25]) (* r426f 3630 4474 *);
   (Simple (Arr (2872128136981943 # 1099511627776) (4483483647277699 # 2251799813685248) (6378407173581091 # 268435456)), [Conc 12; Conc 38]) (* r426b 3631 4475 *);
   (Simple (Arr (1629000000000 # 1) ((-3242591731706757) # 18014398509481984) (5709732207656961 # 33554432)), [Conc 44]) (* r427f 3633 4476 *);
   (Simple (Arr (629049698996071 # 16) ((-193965094975231) # 281474976710656) (1397908274973797 # 8388608)), [Conc 38]) (* r427b 3635 4477 *);
   (Simple (Arr (6542094185267199 # 137438953472) (1733885856537641 # 1125899906842624) (145184800 # 1)), [Conc 11; Conc 6]) (* r428f 3637 4478 *);
   (Simple (Arr (3522186706894915 # 128) (45322743933937 # 281474976710656) (550026218871729 # 8388608)), [Conc 44]) (* r428b 3639 4479 *);
   (Simple (Arr (6816972092211199 # 4398046511104) (4548635623644201 # 2251799813685248) (6435557521489921 # 268435456)), [Conc 20; Conc 5]) (* r429f 3641 4480 *);
   (Simple (Arr (6075196305093567 # 2048) (29518223768501 # 35184372088832) (3349718153231487 # 33554432)), [Conc 44]) (* r429b 3643 4481 *);
   (Simple (Arr (150000000 # 1) (0 # 1) (49789600 # 1)), [Conc 12; Conc 25]) (* r430f 3645 4482 *);
   (Simple (Arr (1205735646125731872768 # 1) ((-158828580186665) # 70368744177664) (2452729829235165 # 16777216)), [Conc 38]) (* r430b 3646 4483 *)].

(** Production rates of the species as combinations of rates of reactions, src/equations/ideal_gas_mix/mechanism/AramcoMech_DMEonly_74spec.cpp:4485-5141 *)
Definition aramco74_production : list (list (Z * N)) :=
  [[((-1)%Z, 90%N); (1%Z, 90%N); ((-1)%Z, 91%N); (1%Z, 91%N); ((-1)%Z, 280%N); (1%Z, 280%N); ((-1)%Z, 281%N); (1%Z, 281%N)] (* N2 4485 *);
   [((-1)%Z, 717%N); (1%Z, 718%N); ((-1)%Z, 719%N); (1%Z, 720%N); ((-1)%Z, 721%N); (1%Z, 722%N); ((-1)%Z, 723%N); (1%Z, 724%N); ((-1)%Z, 725%N); (1%Z, 726%N); ((-1)%Z, 727%N); (1%Z, 728%N); ((-1)%Z, 729%N); (1%Z, 730%N); ((-1)%Z, 731%N); (1%Z, 732%N); ((-1)%Z, 733%N); (1%Z, 734%N); ((-1)%Z, 735%N); (1%Z, 736%N); ((-1)%Z, 737%N); (1%Z, 738%N); ((-1)%Z, 739%N); (1%Z, 740%N); (1%Z, 743%N); ((-1)%Z, 744%N); (1%Z, 745%N); ((-1)%Z, 746%N); (1%Z, 747%N); ((-1)%Z, 748%N)] (* CH3OCH3 4488 *);
   [(1%Z, 72%N); ((-1)%Z, 73%N); ((-1)%Z, 106%N); (1%Z, 106%N); ((-1)%Z, 107%N); (1%Z, 107%N); (1%Z, 120%N); ((-1)%Z, 121%N); (1%Z, 138%N); (1%Z, 151%N); ((-1)%Z, 152%N); (1%Z, 153%N); ((-1)%Z, 154%N); (1%Z, 211%N); ((-1)%Z, 212%N); (1%Z, 217%N); ((-1)%Z, 218%N); ((-1)%Z, 219%N); (1%Z, 220%N); ((-1)%Z, 221%N); (1%Z, 222%N); ((-1)%Z, 223%N); (1%Z, 224%N); ((-1)%Z, 225%N); (1%Z, 226%N); ((-1)%Z, 227%N); (1%Z, 228%N); (1%Z, 250%N); ((-1)%Z, 251%N); ((-1)%Z, 262%N); (1%Z, 263%N); (1%Z, 339%N); ((-1)%Z, 340%N); (1%Z, 359%N); ((-1)%Z, 360%N); ((-1)%Z, 379%N); (1%Z, 380%N); (1%Z, 411%N); ((-1)%Z, 412%N); (1%Z, 423%N); ((-1)%Z, 424%N); (1%Z, 441%N); ((-1)%Z, 442%N); ((-1)%Z, 449%N); (1%Z, 450%N); (1%Z, 522%N); ((-1)%Z, 523%N); (1%Z, 532%N); ((-1)%Z, 533%N); ((-1)%Z, 550%N); (1%Z, 551%N); (1%Z, 561%N); ((-1)%Z, 562%N); (1%Z, 629%N); ((-1)%Z, 630%N); (1%Z, 631%N); ((-1)%Z, 632%N); (1%Z, 653%N); ((-1)%Z, 654%N); (1%Z, 677%N); ((-1)%Z, 678%N); (1%Z, 695%N); ((-1)%Z, 696%N); (1%Z, 729%N); ((-1)%Z, 730%N); (1%Z, 811%N); ((-1)%Z, 812%N); (1%Z, 813%N); ((-1)%Z, 814%N)] (* CH4 4495 *);
   [((-1)%Z, 2%N); (1%Z, 3%N); ((-1)%Z, 4%N); (1%Z, 5%N); ((-1)%Z, 8%N); (1%Z, 9%N); ((-1)%Z, 24%N); (1%Z, 25%N); (1%Z, 40%N); ((-1)%Z, 41%N); (1%Z, 62%N); ((-1)%Z, 63%N); (1%Z, 71%N); ((-1)%Z, 88%N); (1%Z, 88%N); ((-1)%Z, 89%N); (1%Z, 89%N); ((-1)%Z, 112%N); (1%Z, 113%N); (1%Z, 116%N); ((-1)%Z, 117%N); (1%Z, 130%N); ((-1)%Z, 131%N); (1%Z, 136%N); (1%Z, 137%N); (1%Z, 155%N); ((-1)%Z, 156%N); (1%Z, 165%N); ((-1)%Z, 166%N); (1%Z, 197%N); ((-1)%Z, 198%N); (1%Z, 199%N); ((-1)%Z, 200%N); (1%Z, 219%N); ((-1)%Z, 220%N); (1%Z, 231%N); ((-1)%Z, 232%N); (1%Z, 237%N); ((-1)%Z, 238%N); (1%Z, 284%N); ((-1)%Z, 285%N); (1%Z, 286%N); ((-1)%Z, 287%N); ((-1)%Z, 292%N); (1%Z, 293%N); (1%Z, 311%N); ((-1)%Z, 312%N); (1%Z, 313%N); ((-1)%Z, 314%N); (1%Z, 331%N); ((-1)%Z, 332%N); ((-1)%Z, 353%N); (1%Z, 354%N); ((-1)%Z, 355%N); (1%Z, 356%N); (1%Z, 363%N); ((-1)%Z, 364%N); (1%Z, 413%N); ((-1)%Z, 414%N); (1%Z, 415%N); ((-1)%Z, 416%N); (1%Z, 437%N); ((-1)%Z, 438%N); (1%Z, 470%N); ((-1)%Z, 471%N); (1%Z, 486%N); (1%Z, 500%N); ((-1)%Z, 501%N); (1%Z, 502%N); ((-1)%Z, 503%N); (1%Z, 526%N); ((-1)%Z, 527%N); (1%Z, 563%N); ((-1)%Z, 564%N); (1%Z, 565%N); ((-1)%Z, 566%N); ((-1)%Z, 579%N); (1%Z, 580%N); (1%Z, 609%N); ((-1)%Z, 610%N); (1%Z, 611%N); ((-1)%Z, 612%N); (1%Z, 649%N); ((-1)%Z, 650%N); (1%Z, 667%N); ((-1)%Z, 668%N); (1%Z, 689%N); ((-1)%Z, 690%N); (1%Z, 721%N); ((-1)%Z, 722%N); (1%Z, 807%N); ((-1)%Z, 808%N); (1%Z, 809%N); ((-1)%Z, 810%N)] (* H2 4508 *);
   [((-1)%Z, 0%N); (1%Z, 1%N); (1%Z, 10%N); ((-1)%Z, 11%N); ((-1)%Z, 16%N); (1%Z, 17%N); ((-1)%Z, 18%N); (1%Z, 19%N); ((-1)%Z, 20%N); (1%Z, 21%N); ((-1)%Z, 24%N); (1%Z, 25%N); (1%Z, 26%N); ((-1)%Z, 27%N); (1%Z, 28%N); ((-1)%Z, 29%N); (1%Z, 30%N); ((-1)%Z, 31%N); (1%Z, 32%N); ((-1)%Z, 33%N); ((-1)%Z, 50%N); (1%Z, 51%N); ((-1)%Z, 60%N); (1%Z, 61%N); ((-1)%Z, 74%N); (1%Z, 75%N); ((-1)%Z, 76%N); (1%Z, 77%N); ((-1)%Z, 100%N); (1%Z, 100%N); ((-1)%Z, 101%N); (1%Z, 101%N); ((-1)%Z, 108%N); (1%Z, 109%N); (1%Z, 132%N); ((-1)%Z, 133%N); ((-1)%Z, 147%N); (1%Z, 148%N); ((-1)%Z, 161%N); (1%Z, 162%N); ((-1)%Z, 163%N); (1%Z, 164%N); (1%Z, 187%N); ((-1)%Z, 188%N); ((-1)%Z, 207%N); (1%Z, 208%N); ((-1)%Z, 245%N); ((-1)%Z, 246%N); (1%Z, 247%N); (1%Z, 250%N); ((-1)%Z, 251%N); ((-1)%Z, 254%N); (1%Z, 255%N); ((-1)%Z, 256%N); (1%Z, 257%N); ((-1)%Z, 258%N); (1%Z, 259%N); (1%Z, 268%N); ((-1)%Z, 269%N); (1%Z, 270%N); (1%Z, 271%N); (1%Z, 274%N); ((-1)%Z, 275%N); (1%Z, 276%N); ((-1)%Z, 277%N); ((-1)%Z, 294%N); ((-1)%Z, 295%N); (1%Z, 296%N); ((-1)%Z, 307%N); (1%Z, 308%N); ((-1)%Z, 309%N); ((-1)%Z, 317%N); (1%Z, 318%N); ((-1)%Z, 337%N); (1%Z, 338%N); ((-1)%Z, 371%N); (1%Z, 372%N); (1%Z, 383%N); ((-1)%Z, 384%N); ((-1)%Z, 389%N); (1%Z, 390%N); ((-1)%Z, 391%N); (1%Z, 392%N); ((-1)%Z, 393%N); (1%Z, 394%N); ((-1)%Z, 395%N); (1%Z, 396%N); ((-1)%Z, 397%N); (1%Z, 398%N); ((-1)%Z, 421%N); (1%Z, 422%N); ((-1)%Z, 443%N); (1%Z, 444%N); (1%Z, 445%N); ((-1)%Z, 446%N); ((-1)%Z, 463%N); (1%Z, 464%N); ((-1)%Z, 465%N); ((-1)%Z, 490%N); ((-1)%Z, 491%N); ((-1)%Z, 516%N); (1%Z, 517%N); ((-1)%Z, 534%N); (1%Z, 535%N); ((-1)%Z, 556%N); (1%Z, 557%N); ((-1)%Z, 558%N); (1%Z, 559%N); ((-1)%Z, 560%N); ((-1)%Z, 577%N); (1%Z, 578%N); ((-1)%Z, 599%N); (1%Z, 600%N); ((-1)%Z, 607%N); (1%Z, 608%N); ((-1)%Z, 641%N); (1%Z, 642%N); ((-1)%Z, 643%N); (1%Z, 644%N); ((-1)%Z, 657%N); (1%Z, 658%N); ((-1)%Z, 673%N); (1%Z, 674%N); ((-1)%Z, 709%N); (1%Z, 710%N); ((-1)%Z, 731%N); (1%Z, 732%N); ((-1)%Z, 749%N); (1%Z, 750%N); (1%Z, 755%N); ((-1)%Z, 760%N); (1%Z, 761%N); ((-1)%Z, 767%N); (1%Z, 768%N); ((-1)%Z, 791%N); (1%Z, 792%N); ((-1)%Z, 793%N); (1%Z, 794%N)] (* O2 4525 *);
   [((-1)%Z, 48%N); (1%Z, 49%N); ((-1)%Z, 50%N); (1%Z, 51%N); ((-1)%Z, 52%N); (1%Z, 53%N); ((-1)%Z, 54%N); (1%Z, 55%N); ((-1)%Z, 56%N); (1%Z, 57%N); (1%Z, 58%N); ((-1)%Z, 59%N); (1%Z, 60%N); ((-1)%Z, 61%N); (1%Z, 62%N); ((-1)%Z, 63%N); (1%Z, 64%N); ((-1)%Z, 65%N); (1%Z, 68%N); ((-1)%Z, 69%N); (2%Z, 71%N); (1%Z, 72%N); ((-1)%Z, 73%N); (1%Z, 84%N); ((-1)%Z, 85%N); ((-1)%Z, 104%N); (1%Z, 104%N); ((-1)%Z, 105%N); (1%Z, 105%N); (1%Z, 108%N); ((-1)%Z, 109%N); ((-1)%Z, 112%N); (1%Z, 113%N); (1%Z, 128%N); ((-1)%Z, 129%N); (1%Z, 135%N); (1%Z, 137%N); (1%Z, 138%N); (1%Z, 141%N); (1%Z, 142%N); (1%Z, 244%N); (1%Z, 286%N); ((-1)%Z, 287%N); (1%Z, 294%N); (1%Z, 295%N); ((-1)%Z, 296%N); ((-1)%Z, 299%N); (1%Z, 299%N); ((-1)%Z, 300%N); (1%Z, 300%N); (1%Z, 303%N); ((-1)%Z, 304%N); (1%Z, 310%N); (1%Z, 319%N); ((-1)%Z, 320%N); (1%Z, 325%N); ((-1)%Z, 326%N); (1%Z, 411%N); ((-1)%Z, 412%N); (1%Z, 435%N); ((-1)%Z, 436%N); (1%Z, 461%N); ((-1)%Z, 462%N); (1%Z, 465%N); ((-1)%Z, 466%N); (1%Z, 467%N); (1%Z, 472%N); ((-1)%Z, 473%N); (1%Z, 480%N); ((-1)%Z, 481%N); (1%Z, 482%N); ((-1)%Z, 483%N); (1%Z, 484%N); ((-1)%Z, 485%N); (2%Z, 486%N); (2%Z, 487%N); (1%Z, 488%N); ((-1)%Z, 489%N); (2%Z, 490%N); (1%Z, 491%N); ((-1)%Z, 492%N); (1%Z, 493%N); (1%Z, 496%N); ((-1)%Z, 497%N); (1%Z, 560%N); (1%Z, 573%N); ((-1)%Z, 574%N); (1%Z, 577%N); ((-1)%Z, 578%N); (1%Z, 583%N); ((-1)%Z, 584%N); (1%Z, 591%N); ((-1)%Z, 592%N); (1%Z, 593%N); ((-1)%Z, 594%N); ((-1)%Z, 685%N); (1%Z, 686%N); ((-1)%Z, 715%N); (1%Z, 716%N); ((-1)%Z, 777%N); (1%Z, 778%N); (1%Z, 785%N); ((-1)%Z, 786%N); ((-1)%Z, 831%N); (1%Z, 832%N)] (* CO 4549 *);
   [(1%Z, 48%N); ((-1)%Z, 49%N); (1%Z, 50%N); ((-1)%Z, 51%N); (1%Z, 52%N); ((-1)%Z, 53%N); (1%Z, 54%N); ((-1)%Z, 55%N); (1%Z, 56%N); ((-1)%Z, 57%N); (1%Z, 66%N); ((-1)%Z, 67%N); (1%Z, 70%N); ((-1)%Z, 82%N); (1%Z, 83%N); ((-1)%Z, 102%N); (1%Z, 102%N); ((-1)%Z, 103%N); (1%Z, 103%N); (1%Z, 130%N); ((-1)%Z, 131%N); (1%Z, 134%N); (1%Z, 136%N); (1%Z, 243%N); (1%Z, 245%N); (1%Z, 246%N); ((-1)%Z, 247%N); ((-1)%Z, 301%N); (1%Z, 301%N); ((-1)%Z, 302%N); (1%Z, 302%N); ((-1)%Z, 303%N); (1%Z, 304%N); (1%Z, 309%N); ((-1)%Z, 325%N); (1%Z, 326%N); (1%Z, 457%N); ((-1)%Z, 458%N); (1%Z, 474%N); ((-1)%Z, 475%N); (1%Z, 491%N); ((-1)%Z, 779%N); (1%Z, 780%N); ((-1)%Z, 829%N); (1%Z, 830%N)] (* CO2 4568 *);
   [(1%Z, 4%N); ((-1)%Z, 5%N); ((-1)%Z, 6%N); (1%Z, 7%N); (1%Z, 14%N); ((-1)%Z, 15%N); (1%Z, 28%N); ((-1)%Z, 29%N); (1%Z, 38%N); ((-1)%Z, 39%N); (1%Z, 44%N); ((-1)%Z, 45%N); (1%Z, 46%N); ((-1)%Z, 47%N); (1%Z, 68%N); ((-1)%Z, 69%N); ((-1)%Z, 86%N); (1%Z, 86%N); ((-1)%Z, 87%N); (1%Z, 87%N); (1%Z, 114%N); ((-1)%Z, 115%N); (1%Z, 128%N); ((-1)%Z, 129%N); (1%Z, 134%N); (1%Z, 135%N); (1%Z, 175%N); ((-1)%Z, 176%N); (1%Z, 193%N); ((-1)%Z, 194%N); (1%Z, 203%N); ((-1)%Z, 204%N); (1%Z, 205%N); ((-1)%Z, 206%N); (1%Z, 221%N); ((-1)%Z, 222%N); (1%Z, 229%N); ((-1)%Z, 230%N); (1%Z, 239%N); ((-1)%Z, 240%N); (1%Z, 246%N); ((-1)%Z, 247%N); (1%Z, 295%N); ((-1)%Z, 296%N); ((-1)%Z, 297%N); (1%Z, 297%N); ((-1)%Z, 298%N); (1%Z, 298%N); (1%Z, 315%N); ((-1)%Z, 316%N); ((-1)%Z, 323%N); (1%Z, 324%N); (1%Z, 335%N); ((-1)%Z, 336%N); (1%Z, 419%N); ((-1)%Z, 420%N); (1%Z, 433%N); ((-1)%Z, 434%N); (1%Z, 478%N); ((-1)%Z, 479%N); (1%Z, 508%N); ((-1)%Z, 509%N); (1%Z, 520%N); ((-1)%Z, 521%N); (1%Z, 567%N); ((-1)%Z, 568%N); (1%Z, 587%N); ((-1)%Z, 588%N); (1%Z, 601%N); ((-1)%Z, 602%N); (1%Z, 613%N); ((-1)%Z, 614%N); (1%Z, 615%N); ((-1)%Z, 616%N); (1%Z, 647%N); ((-1)%Z, 648%N); (1%Z, 671%N); ((-1)%Z, 672%N); (1%Z, 693%N); ((-1)%Z, 694%N); (1%Z, 719%N); ((-1)%Z, 720%N); (1%Z, 795%N); ((-1)%Z, 796%N); (1%Z, 797%N); ((-1)%Z, 798%N)] (* H2O 4577 *);
   [((-1)%Z, 0%N); (1%Z, 1%N); (1%Z, 2%N); ((-1)%Z, 3%N); (1%Z, 4%N); ((-1)%Z, 5%N); (2%Z, 8%N); ((-2)%Z, 9%N); ((-1)%Z, 12%N); (1%Z, 13%N); ((-1)%Z, 14%N); (1%Z, 15%N); ((-1)%Z, 16%N); (1%Z, 17%N); ((-1)%Z, 18%N); (1%Z, 19%N); ((-1)%Z, 20%N); (1%Z, 21%N); ((-1)%Z, 22%N); (1%Z, 23%N); (1%Z, 24%N); ((-1)%Z, 25%N); ((-1)%Z, 38%N); (1%Z, 39%N); ((-1)%Z, 40%N); (1%Z, 41%N); (1%Z, 52%N); ((-1)%Z, 53%N); (1%Z, 54%N); ((-1)%Z, 55%N); (1%Z, 58%N); ((-1)%Z, 59%N); ((-1)%Z, 62%N); (1%Z, 63%N); (1%Z, 66%N); ((-1)%Z, 67%N); (1%Z, 70%N); ((-1)%Z, 82%N); (1%Z, 83%N); ((-1)%Z, 94%N); (1%Z, 94%N); ((-1)%Z, 95%N); (1%Z, 95%N); ((-1)%Z, 110%N); (1%Z, 111%N); ((-1)%Z, 116%N); (1%Z, 117%N); (1%Z, 126%N); ((-1)%Z, 127%N); (1%Z, 134%N); ((-1)%Z, 136%N); (1%Z, 136%N); ((-1)%Z, 137%N); (1%Z, 145%N); ((-1)%Z, 146%N); ((-1)%Z, 155%N); (1%Z, 156%N); ((-1)%Z, 159%N); (1%Z, 160%N); ((-1)%Z, 165%N); (1%Z, 166%N); (1%Z, 195%N); ((-1)%Z, 196%N); ((-1)%Z, 197%N); (1%Z, 198%N); ((-1)%Z, 199%N); (1%Z, 200%N); ((-1)%Z, 217%N); (1%Z, 218%N); ((-1)%Z, 219%N); (1%Z, 220%N); (1%Z, 233%N); ((-1)%Z, 234%N); (1%Z, 235%N); ((-1)%Z, 236%N); ((-1)%Z, 241%N); (1%Z, 241%N); ((-1)%Z, 242%N); (1%Z, 242%N); (2%Z, 243%N); (1%Z, 244%N); (1%Z, 245%N); (1%Z, 252%N); ((-1)%Z, 253%N); ((-1)%Z, 272%N); (1%Z, 273%N); ((-1)%Z, 284%N); (1%Z, 285%N); (1%Z, 288%N); ((-1)%Z, 289%N); (1%Z, 290%N); ((-1)%Z, 291%N); (1%Z, 292%N); ((-1)%Z, 293%N); (1%Z, 294%N); ((-1)%Z, 305%N); (1%Z, 306%N); (2%Z, 309%N); (2%Z, 310%N); ((-1)%Z, 311%N); (1%Z, 312%N); ((-1)%Z, 313%N); (1%Z, 314%N); (1%Z, 319%N); ((-1)%Z, 320%N); (1%Z, 321%N); ((-1)%Z, 322%N); (1%Z, 323%N); ((-1)%Z, 324%N); ((-1)%Z, 329%N); (1%Z, 330%N); ((-1)%Z, 331%N); (1%Z, 332%N); ((-1)%Z, 351%N); (1%Z, 352%N); (1%Z, 353%N); ((-1)%Z, 354%N); (1%Z, 355%N); ((-1)%Z, 356%N); (1%Z, 361%N); ((-1)%Z, 362%N); ((-1)%Z, 363%N); (1%Z, 364%N); (1%Z, 365%N); ((-1)%Z, 366%N); ((-1)%Z, 375%N); (1%Z, 376%N); ((-1)%Z, 413%N); (1%Z, 414%N); ((-1)%Z, 415%N); (1%Z, 416%N); ((-1)%Z, 437%N); (1%Z, 438%N); (1%Z, 459%N); ((-1)%Z, 460%N); (1%Z, 468%N); ((-1)%Z, 469%N); ((-1)%Z, 470%N); (1%Z, 471%N); ((-1)%Z, 472%N); (1%Z, 473%N); (1%Z, 487%N); ((-1)%Z, 488%N); (1%Z, 489%N); (1%Z, 491%N); (1%Z, 494%N); ((-1)%Z, 495%N); ((-1)%Z, 498%N); (1%Z, 499%N); ((-1)%Z, 502%N); (1%Z, 503%N); (1%Z, 506%N); ((-1)%Z, 507%N); (1%Z, 512%N); ((-1)%Z, 513%N); (1%Z, 514%N); ((-1)%Z, 515%N); ((-1)%Z, 526%N); (1%Z, 527%N); (1%Z, 550%N); ((-1)%Z, 551%N); (1%Z, 552%N); ((-1)%Z, 553%N); ((-1)%Z, 554%N); (1%Z, 555%N); (1%Z, 560%N); ((-1)%Z, 563%N); (1%Z, 564%N); ((-1)%Z, 565%N); (1%Z, 566%N); ((-1)%Z, 571%N); (1%Z, 572%N); (1%Z, 575%N); ((-1)%Z, 576%N); (1%Z, 579%N); ((-1)%Z, 580%N); (1%Z, 585%N); ((-1)%Z, 586%N); (1%Z, 589%N); ((-1)%Z, 590%N); ((-1)%Z, 595%N); (1%Z, 595%N); ((-1)%Z, 596%N); (1%Z, 596%N); (1%Z, 597%N); ((-1)%Z, 598%N); ((-1)%Z, 609%N); (1%Z, 610%N); ((-1)%Z, 611%N); (1%Z, 612%N); (1%Z, 635%N); ((-1)%Z, 636%N); (1%Z, 637%N); ((-1)%Z, 638%N); ((-1)%Z, 649%N); (1%Z, 650%N); ((-1)%Z, 667%N); (1%Z, 668%N); ((-1)%Z, 689%N); (1%Z, 690%N); ((-1)%Z, 721%N); (1%Z, 722%N); ((-1)%Z, 762%N); (1%Z, 763%N); ((-1)%Z, 781%N); (1%Z, 782%N); ((-1)%Z, 783%N); (1%Z, 784%N); ((-1)%Z, 807%N); (1%Z, 808%N); ((-1)%Z, 809%N); (1%Z, 810%N)] (* H 4593 *);
   [(1%Z, 0%N); ((-1)%Z, 1%N); ((-1)%Z, 2%N); (1%Z, 3%N); ((-1)%Z, 6%N); (1%Z, 7%N); ((-2)%Z, 10%N); (2%Z, 11%N); ((-1)%Z, 12%N); (1%Z, 13%N); ((-1)%Z, 26%N); (1%Z, 27%N); ((-1)%Z, 42%N); (1%Z, 43%N); ((-1)%Z, 48%N); (1%Z, 49%N); (1%Z, 50%N); ((-1)%Z, 51%N); ((-1)%Z, 64%N); (1%Z, 65%N); ((-1)%Z, 66%N); (1%Z, 67%N); ((-1)%Z, 118%N); (1%Z, 119%N); ((-1)%Z, 142%N); ((-1)%Z, 177%N); (1%Z, 178%N); ((-1)%Z, 201%N); (1%Z, 202%N); ((-1)%Z, 223%N); (1%Z, 224%N); ((-1)%Z, 243%N); ((-1)%Z, 244%N); ((-1)%Z, 252%N); (1%Z, 253%N); (1%Z, 254%N); ((-1)%Z, 255%N); ((-1)%Z, 274%N); (1%Z, 275%N); ((-1)%Z, 286%N); (1%Z, 287%N); ((-1)%Z, 288%N); (1%Z, 289%N); ((-1)%Z, 310%N); (1%Z, 317%N); ((-1)%Z, 318%N); ((-1)%Z, 319%N); (1%Z, 320%N); ((-1)%Z, 333%N); (1%Z, 334%N); ((-1)%Z, 365%N); (1%Z, 366%N); ((-1)%Z, 417%N); (1%Z, 418%N); ((-1)%Z, 439%N); (1%Z, 440%N); ((-1)%Z, 474%N); (1%Z, 475%N); ((-1)%Z, 476%N); (1%Z, 477%N); ((-1)%Z, 487%N); ((-1)%Z, 504%N); (1%Z, 505%N); ((-1)%Z, 506%N); (1%Z, 507%N); ((-1)%Z, 518%N); (1%Z, 519%N); (1%Z, 558%N); ((-1)%Z, 559%N); ((-1)%Z, 573%N); (1%Z, 574%N); ((-1)%Z, 583%N); (1%Z, 584%N); ((-1)%Z, 585%N); (1%Z, 586%N); ((-1)%Z, 625%N); (1%Z, 626%N); ((-1)%Z, 627%N); (1%Z, 628%N); ((-1)%Z, 651%N); (1%Z, 652%N); ((-1)%Z, 669%N); (1%Z, 670%N); ((-1)%Z, 691%N); (1%Z, 692%N); ((-1)%Z, 723%N); (1%Z, 724%N); ((-1)%Z, 803%N); (1%Z, 804%N); ((-1)%Z, 805%N); (1%Z, 806%N)] (* O 4629 *);
   [(1%Z, 0%N); ((-1)%Z, 1%N); (1%Z, 2%N); ((-1)%Z, 3%N); ((-1)%Z, 4%N); (1%Z, 5%N); (2%Z, 6%N); ((-2)%Z, 7%N); (1%Z, 12%N); ((-1)%Z, 13%N); ((-1)%Z, 14%N); (1%Z, 15%N); (2%Z, 22%N); ((-2)%Z, 23%N); (1%Z, 26%N); ((-1)%Z, 27%N); ((-1)%Z, 28%N); (1%Z, 29%N); (2%Z, 34%N); ((-2)%Z, 35%N); (2%Z, 36%N); ((-2)%Z, 37%N); (1%Z, 38%N); ((-1)%Z, 39%N); (1%Z, 42%N); ((-1)%Z, 43%N); ((-1)%Z, 44%N); (1%Z, 45%N); ((-1)%Z, 46%N); (1%Z, 47%N); ((-1)%Z, 52%N); (1%Z, 53%N); ((-1)%Z, 54%N); (1%Z, 55%N); (1%Z, 56%N); ((-1)%Z, 57%N); (1%Z, 64%N); ((-1)%Z, 65%N); ((-1)%Z, 68%N); (1%Z, 69%N); (1%Z, 70%N); ((-1)%Z, 80%N); (1%Z, 81%N); (1%Z, 86%N); ((-1)%Z, 87%N); (1%Z, 88%N); ((-1)%Z, 89%N); (1%Z, 90%N); ((-1)%Z, 91%N); ((-1)%Z, 92%N); (2%Z, 92%N); ((-2)%Z, 93%N); (1%Z, 93%N); (1%Z, 94%N); ((-1)%Z, 95%N); (1%Z, 96%N); ((-1)%Z, 97%N); (1%Z, 98%N); ((-1)%Z, 99%N); (1%Z, 100%N); ((-1)%Z, 101%N); (1%Z, 102%N); ((-1)%Z, 103%N); (1%Z, 104%N); ((-1)%Z, 105%N); (1%Z, 106%N); ((-1)%Z, 107%N); ((-1)%Z, 114%N); (1%Z, 115%N); (1%Z, 118%N); ((-1)%Z, 119%N); ((-1)%Z, 124%N); (1%Z, 125%N); ((-1)%Z, 134%N); ((-1)%Z, 135%N); (1%Z, 135%N); (1%Z, 137%N); (1%Z, 138%N); (1%Z, 141%N); (2%Z, 142%N); ((-1)%Z, 175%N); (1%Z, 176%N); (1%Z, 177%N); ((-1)%Z, 178%N); (1%Z, 181%N); ((-1)%Z, 182%N); ((-1)%Z, 189%N); (1%Z, 190%N); (1%Z, 191%N); ((-1)%Z, 192%N); (1%Z, 201%N); ((-1)%Z, 202%N); ((-1)%Z, 203%N); (1%Z, 204%N); ((-1)%Z, 205%N); (1%Z, 206%N); ((-1)%Z, 221%N); (1%Z, 222%N); (1%Z, 223%N); ((-1)%Z, 224%N); ((-1)%Z, 229%N); (1%Z, 230%N); ((-1)%Z, 231%N); (1%Z, 232%N); ((-1)%Z, 233%N); (1%Z, 234%N); ((-1)%Z, 235%N); (1%Z, 236%N); ((-1)%Z, 237%N); (1%Z, 238%N); ((-1)%Z, 239%N); (1%Z, 240%N); (1%Z, 244%N); (1%Z, 245%N); (1%Z, 248%N); ((-1)%Z, 249%N); (1%Z, 256%N); ((-1)%Z, 257%N); (1%Z, 272%N); ((-1)%Z, 273%N); ((-1)%Z, 276%N); (1%Z, 277%N); (1%Z, 278%N); ((-1)%Z, 279%N); ((-1)%Z, 290%N); (1%Z, 291%N); (1%Z, 294%N); (1%Z, 307%N); ((-1)%Z, 308%N); ((-1)%Z, 315%N); (1%Z, 316%N); ((-1)%Z, 321%N); (1%Z, 322%N); (1%Z, 333%N); ((-1)%Z, 334%N); ((-1)%Z, 335%N); (1%Z, 336%N); (1%Z, 367%N); ((-1)%Z, 368%N); (1%Z, 387%N); ((-1)%Z, 388%N); (1%Z, 395%N); ((-1)%Z, 396%N); (1%Z, 397%N); ((-1)%Z, 398%N); (1%Z, 399%N); ((-1)%Z, 400%N); (1%Z, 403%N); ((-1)%Z, 404%N); (1%Z, 417%N); ((-1)%Z, 418%N); ((-1)%Z, 419%N); (1%Z, 420%N); ((-1)%Z, 431%N); (1%Z, 432%N); ((-1)%Z, 433%N); (1%Z, 434%N); (1%Z, 439%N); ((-1)%Z, 440%N); (1%Z, 455%N); ((-1)%Z, 456%N); (1%Z, 465%N); (1%Z, 476%N); ((-1)%Z, 477%N); ((-1)%Z, 478%N); (1%Z, 479%N); ((-1)%Z, 480%N); (1%Z, 481%N); ((-1)%Z, 486%N); (1%Z, 490%N); ((-1)%Z, 508%N); (1%Z, 509%N); ((-1)%Z, 510%N); (1%Z, 511%N); ((-1)%Z, 512%N); (1%Z, 513%N); ((-1)%Z, 514%N); (1%Z, 515%N); (1%Z, 518%N); ((-1)%Z, 519%N); ((-1)%Z, 520%N); (1%Z, 521%N); (1%Z, 548%N); ((-1)%Z, 549%N); ((-1)%Z, 567%N); (1%Z, 568%N); ((-1)%Z, 575%N); (1%Z, 576%N); ((-1)%Z, 587%N); (1%Z, 588%N); ((-1)%Z, 589%N); (1%Z, 590%N); ((-1)%Z, 591%N); (1%Z, 592%N); ((-1)%Z, 597%N); (1%Z, 598%N); (1%Z, 605%N); ((-1)%Z, 606%N); ((-1)%Z, 613%N); (1%Z, 614%N); ((-1)%Z, 615%N); (1%Z, 616%N); (1%Z, 625%N); ((-1)%Z, 626%N); (1%Z, 627%N); ((-1)%Z, 628%N); ((-1)%Z, 647%N); (1%Z, 648%N); (1%Z, 651%N); ((-1)%Z, 652%N); (1%Z, 669%N); ((-1)%Z, 670%N); ((-1)%Z, 671%N); (1%Z, 672%N); (1%Z, 691%N); ((-1)%Z, 692%N); ((-1)%Z, 693%N); (1%Z, 694%N); ((-1)%Z, 719%N); (1%Z, 720%N); (1%Z, 723%N); ((-1)%Z, 724%N); ((-1)%Z, 756%N); (1%Z, 757%N); (1%Z, 766%N); (1%Z, 769%N); ((-1)%Z, 770%N); (1%Z, 771%N); ((-1)%Z, 772%N); ((-1)%Z, 795%N); (1%Z, 796%N); ((-1)%Z, 797%N); (1%Z, 798%N); (1%Z, 803%N); ((-1)%Z, 804%N); (1%Z, 805%N); ((-1)%Z, 806%N)] (* OH 4646 *);
   [((-1)%Z, 72%N); (1%Z, 73%N); ((-1)%Z, 120%N); (1%Z, 121%N); ((-1)%Z, 138%N); ((-1)%Z, 151%N); (1%Z, 152%N); ((-1)%Z, 153%N); (1%Z, 154%N); (1%Z, 191%N); ((-1)%Z, 192%N); ((-1)%Z, 211%N); (1%Z, 212%N); ((-1)%Z, 217%N); (1%Z, 218%N); (1%Z, 219%N); ((-1)%Z, 220%N); (1%Z, 221%N); ((-1)%Z, 222%N); (1%Z, 223%N); ((-1)%Z, 224%N); (1%Z, 225%N); ((-1)%Z, 226%N); (2%Z, 227%N); ((-2)%Z, 228%N); ((-1)%Z, 229%N); (1%Z, 230%N); ((-1)%Z, 231%N); (1%Z, 232%N); ((-1)%Z, 233%N); (1%Z, 234%N); ((-1)%Z, 235%N); (1%Z, 236%N); ((-1)%Z, 237%N); (1%Z, 238%N); ((-1)%Z, 248%N); (1%Z, 249%N); ((-1)%Z, 250%N); (1%Z, 251%N); ((-1)%Z, 252%N); (1%Z, 253%N); ((-1)%Z, 254%N); (1%Z, 255%N); ((-1)%Z, 256%N); (1%Z, 257%N); ((-1)%Z, 258%N); (1%Z, 259%N); (1%Z, 262%N); ((-1)%Z, 263%N); ((-1)%Z, 266%N); (1%Z, 267%N); (1%Z, 292%N); ((-1)%Z, 293%N); (1%Z, 305%N); ((-1)%Z, 306%N); ((-2)%Z, 327%N); (2%Z, 328%N); ((-1)%Z, 339%N); (1%Z, 340%N); (1%Z, 349%N); ((-1)%Z, 350%N); ((-1)%Z, 359%N); (1%Z, 360%N); ((-2)%Z, 361%N); (2%Z, 362%N); ((-1)%Z, 373%N); (1%Z, 374%N); (1%Z, 379%N); ((-1)%Z, 380%N); (1%Z, 405%N); ((-1)%Z, 406%N); (1%Z, 409%N); ((-1)%Z, 410%N); ((-1)%Z, 423%N); (1%Z, 424%N); (1%Z, 431%N); ((-1)%Z, 432%N); (1%Z, 435%N); ((-1)%Z, 436%N); ((-1)%Z, 441%N); (1%Z, 442%N); (1%Z, 449%N); ((-1)%Z, 450%N); (1%Z, 457%N); ((-1)%Z, 458%N); (1%Z, 461%N); ((-1)%Z, 462%N); (1%Z, 472%N); ((-1)%Z, 473%N); ((-1)%Z, 482%N); (1%Z, 483%N); (1%Z, 504%N); ((-1)%Z, 505%N); (1%Z, 510%N); ((-1)%Z, 511%N); ((-1)%Z, 522%N); (1%Z, 523%N); ((-1)%Z, 532%N); (1%Z, 533%N); ((-1)%Z, 552%N); (1%Z, 553%N); ((-1)%Z, 561%N); (1%Z, 562%N); (1%Z, 591%N); ((-1)%Z, 592%N); (1%Z, 603%N); ((-1)%Z, 604%N); ((-1)%Z, 629%N); (1%Z, 630%N); ((-1)%Z, 631%N); (1%Z, 632%N); (1%Z, 645%N); ((-1)%Z, 646%N); ((-1)%Z, 653%N); (1%Z, 654%N); ((-1)%Z, 663%N); (1%Z, 664%N); ((-1)%Z, 677%N); (1%Z, 678%N); ((-1)%Z, 695%N); (1%Z, 696%N); (1%Z, 717%N); ((-1)%Z, 718%N); ((-1)%Z, 729%N); (1%Z, 730%N); (1%Z, 741%N); ((-1)%Z, 742%N); ((-1)%Z, 789%N); (1%Z, 790%N); ((-1)%Z, 811%N); (1%Z, 812%N); ((-1)%Z, 813%N); (1%Z, 814%N); ((-1)%Z, 829%N); (1%Z, 830%N)] (* CH3 4687 *);
   [((-1)%Z, 74%N); (1%Z, 75%N); ((-1)%Z, 78%N); (1%Z, 79%N); (1%Z, 84%N); ((-1)%Z, 85%N); (1%Z, 110%N); ((-1)%Z, 111%N); (1%Z, 112%N); ((-1)%Z, 113%N); ((-1)%Z, 114%N); (1%Z, 115%N); ((-1)%Z, 116%N); (1%Z, 117%N); ((-1)%Z, 118%N); (1%Z, 119%N); ((-1)%Z, 120%N); (1%Z, 121%N); ((-1)%Z, 122%N); (1%Z, 123%N); ((-1)%Z, 124%N); (1%Z, 125%N); ((-1)%Z, 143%N); (1%Z, 144%N); (1%Z, 145%N); ((-1)%Z, 146%N); (1%Z, 147%N); ((-1)%Z, 148%N); ((-1)%Z, 149%N); (1%Z, 150%N); (1%Z, 153%N); ((-1)%Z, 154%N); (1%Z, 155%N); ((-1)%Z, 156%N); (1%Z, 157%N); ((-1)%Z, 158%N); ((-1)%Z, 159%N); (1%Z, 160%N); (1%Z, 161%N); ((-1)%Z, 162%N); (1%Z, 163%N); ((-1)%Z, 164%N); (1%Z, 165%N); ((-1)%Z, 166%N); (1%Z, 167%N); ((-1)%Z, 168%N); (2%Z, 169%N); ((-2)%Z, 170%N); (1%Z, 171%N); ((-1)%Z, 172%N); (1%Z, 173%N); ((-1)%Z, 174%N); (1%Z, 175%N); ((-1)%Z, 176%N); (1%Z, 177%N); ((-1)%Z, 178%N); (1%Z, 179%N); ((-1)%Z, 180%N); ((-1)%Z, 183%N); (1%Z, 184%N); (1%Z, 215%N); ((-1)%Z, 216%N); (1%Z, 231%N); ((-1)%Z, 232%N); (1%Z, 241%N); ((-1)%Z, 242%N); (1%Z, 252%N); ((-1)%Z, 253%N); (1%Z, 256%N); ((-1)%Z, 257%N); ((-1)%Z, 260%N); (1%Z, 261%N); (1%Z, 270%N); (1%Z, 290%N); ((-1)%Z, 291%N); (1%Z, 303%N); ((-1)%Z, 304%N); (1%Z, 323%N); ((-1)%Z, 324%N); ((-1)%Z, 373%N); (1%Z, 374%N); ((-1)%Z, 377%N); (1%Z, 378%N); ((-1)%Z, 451%N); (1%Z, 452%N); (1%Z, 465%N); ((-1)%Z, 494%N); (1%Z, 495%N); (1%Z, 510%N); ((-1)%Z, 511%N); (1%Z, 556%N); ((-1)%Z, 557%N); (1%Z, 560%N); (1%Z, 741%N); ((-1)%Z, 742%N); (1%Z, 743%N); ((-1)%Z, 744%N); ((-1)%Z, 745%N); (1%Z, 746%N); ((-1)%Z, 751%N); (1%Z, 752%N); ((-1)%Z, 758%N); (1%Z, 759%N); (2%Z, 766%N); ((-1)%Z, 773%N); (1%Z, 774%N); (1%Z, 823%N); ((-1)%Z, 824%N); (1%Z, 825%N); ((-1)%Z, 826%N); ((-1)%Z, 833%N); (1%Z, 834%N)] (* CH2O 4712 *);
   [(1%Z, 327%N); ((-1)%Z, 328%N); (1%Z, 329%N); ((-1)%Z, 330%N); ((-1)%Z, 331%N); (1%Z, 332%N); ((-1)%Z, 333%N); (1%Z, 334%N); ((-1)%Z, 335%N); (1%Z, 336%N); ((-1)%Z, 337%N); (1%Z, 338%N); ((-1)%Z, 339%N); (1%Z, 340%N); ((-1)%Z, 341%N); (1%Z, 342%N); ((-1)%Z, 343%N); (1%Z, 344%N); ((-1)%Z, 345%N); (1%Z, 346%N); ((-1)%Z, 347%N); (1%Z, 348%N); ((-1)%Z, 349%N); (1%Z, 350%N); ((-1)%Z, 385%N); (1%Z, 386%N); ((-1)%Z, 453%N); (1%Z, 454%N); (1%Z, 633%N); ((-1)%Z, 634%N); (1%Z, 703%N); ((-1)%Z, 704%N)] (* C2H6 4732 *);
   [(1%Z, 719%N); ((-1)%Z, 720%N); (1%Z, 721%N); ((-1)%Z, 722%N); (1%Z, 723%N); ((-1)%Z, 724%N); (1%Z, 725%N); ((-1)%Z, 726%N); (1%Z, 727%N); ((-1)%Z, 728%N); (1%Z, 729%N); ((-1)%Z, 730%N); (1%Z, 731%N); ((-1)%Z, 732%N); (1%Z, 733%N); ((-1)%Z, 734%N); (1%Z, 735%N); ((-1)%Z, 736%N); (1%Z, 737%N); ((-1)%Z, 738%N); (1%Z, 739%N); ((-1)%Z, 740%N); ((-1)%Z, 741%N); (1%Z, 742%N); ((-1)%Z, 743%N); (1%Z, 744%N); ((-1)%Z, 745%N); (1%Z, 746%N); ((-1)%Z, 747%N); (1%Z, 748%N); ((-1)%Z, 749%N); (1%Z, 750%N)] (* CH3OCH2 4740 *);
   [(1%Z, 767%N); ((-1)%Z, 768%N); ((-1)%Z, 769%N); (1%Z, 770%N)] (* O2CH2OCH2O2H 4748 *);
   [(1%Z, 764%N); ((-1)%Z, 765%N); ((-1)%Z, 766%N); ((-1)%Z, 767%N); (1%Z, 768%N)] (* CH2OCH2O2H 4750 *);
   [(1%Z, 16%N); ((-1)%Z, 17%N); (1%Z, 18%N); ((-1)%Z, 19%N); (1%Z, 20%N); ((-1)%Z, 21%N); ((-1)%Z, 22%N); (1%Z, 23%N); (1%Z, 24%N); ((-1)%Z, 25%N); ((-1)%Z, 26%N); (1%Z, 27%N); ((-1)%Z, 28%N); (1%Z, 29%N); ((-2)%Z, 30%N); (2%Z, 31%N); ((-2)%Z, 32%N); (2%Z, 33%N); (1%Z, 40%N); ((-1)%Z, 41%N); (1%Z, 42%N); ((-1)%Z, 43%N); (1%Z, 44%N); ((-1)%Z, 45%N); (1%Z, 46%N); ((-1)%Z, 47%N); ((-1)%Z, 56%N); (1%Z, 57%N); (1%Z, 60%N); ((-1)%Z, 61%N); ((-1)%Z, 70%N); (1%Z, 74%N); ((-1)%Z, 75%N); ((-1)%Z, 122%N); (1%Z, 123%N); ((-1)%Z, 132%N); (1%Z, 133%N); (1%Z, 139%N); ((-1)%Z, 140%N); ((-1)%Z, 141%N); (1%Z, 147%N); ((-1)%Z, 148%N); ((-1)%Z, 157%N); (1%Z, 158%N); (1%Z, 161%N); ((-1)%Z, 162%N); (1%Z, 163%N); ((-1)%Z, 164%N); ((-1)%Z, 167%N); (1%Z, 168%N); ((-1)%Z, 181%N); (1%Z, 182%N); ((-1)%Z, 183%N); (1%Z, 184%N); ((-1)%Z, 187%N); (1%Z, 188%N); (1%Z, 207%N); ((-1)%Z, 208%N); ((-1)%Z, 209%N); (1%Z, 210%N); ((-1)%Z, 225%N); (1%Z, 226%N); ((-1)%Z, 248%N); (1%Z, 249%N); ((-1)%Z, 250%N); (1%Z, 251%N); ((-1)%Z, 268%N); (1%Z, 269%N); (1%Z, 337%N); ((-1)%Z, 338%N); ((-1)%Z, 341%N); (1%Z, 342%N); ((-1)%Z, 367%N); (1%Z, 368%N); (1%Z, 371%N); ((-1)%Z, 372%N); ((-1)%Z, 383%N); (1%Z, 384%N); (1%Z, 391%N); ((-1)%Z, 392%N); (1%Z, 393%N); ((-1)%Z, 394%N); (1%Z, 401%N); ((-1)%Z, 402%N); (1%Z, 421%N); ((-1)%Z, 422%N); ((-1)%Z, 425%N); (1%Z, 426%N); ((-1)%Z, 445%N); (1%Z, 446%N); (1%Z, 447%N); ((-1)%Z, 448%N); (1%Z, 463%N); ((-1)%Z, 464%N); (1%Z, 516%N); ((-1)%Z, 517%N); ((-1)%Z, 528%N); (1%Z, 528%N); ((-1)%Z, 529%N); (1%Z, 529%N); (1%Z, 534%N); ((-1)%Z, 535%N); ((-1)%Z, 548%N); (1%Z, 549%N); (1%Z, 607%N); ((-1)%Z, 608%N); ((-1)%Z, 617%N); (1%Z, 618%N); ((-1)%Z, 619%N); (1%Z, 620%N); (1%Z, 641%N); ((-1)%Z, 642%N); (1%Z, 643%N); ((-1)%Z, 644%N); (1%Z, 657%N); ((-1)%Z, 658%N); ((-1)%Z, 659%N); (1%Z, 660%N); (1%Z, 673%N); ((-1)%Z, 674%N); ((-1)%Z, 675%N); (1%Z, 676%N); ((-1)%Z, 697%N); (1%Z, 698%N); (1%Z, 709%N); ((-1)%Z, 710%N); ((-1)%Z, 725%N); (1%Z, 726%N); (1%Z, 731%N); ((-1)%Z, 732%N); (1%Z, 760%N); ((-1)%Z, 761%N); (1%Z, 791%N); ((-1)%Z, 792%N); (1%Z, 793%N); ((-1)%Z, 794%N); ((-1)%Z, 799%N); (1%Z, 800%N); ((-1)%Z, 801%N); (1%Z, 802%N)] (* HO2 4752 *);
   [(1%Z, 30%N); ((-1)%Z, 31%N); (1%Z, 32%N); ((-1)%Z, 33%N); ((-1)%Z, 34%N); (1%Z, 35%N); ((-1)%Z, 36%N); (1%Z, 37%N); ((-1)%Z, 38%N); (1%Z, 39%N); ((-1)%Z, 40%N); (1%Z, 41%N); ((-1)%Z, 42%N); (1%Z, 43%N); ((-1)%Z, 44%N); (1%Z, 45%N); ((-1)%Z, 46%N); (1%Z, 47%N); (1%Z, 122%N); ((-1)%Z, 123%N); ((-1)%Z, 139%N); (1%Z, 140%N); (1%Z, 141%N); (1%Z, 157%N); ((-1)%Z, 158%N); (1%Z, 167%N); ((-1)%Z, 168%N); (1%Z, 209%N); ((-1)%Z, 210%N); (1%Z, 225%N); ((-1)%Z, 226%N); (1%Z, 341%N); ((-1)%Z, 342%N); (1%Z, 425%N); ((-1)%Z, 426%N); ((-1)%Z, 447%N); (1%Z, 448%N); (1%Z, 617%N); ((-1)%Z, 618%N); (1%Z, 619%N); ((-1)%Z, 620%N); (1%Z, 659%N); ((-1)%Z, 660%N); (1%Z, 675%N); ((-1)%Z, 676%N); (1%Z, 697%N); ((-1)%Z, 698%N); (1%Z, 725%N); ((-1)%Z, 726%N); (1%Z, 799%N); ((-1)%Z, 800%N); (1%Z, 801%N); ((-1)%Z, 802%N)] (* H2O2 4777 *);
   [((-1)%Z, 735%N); (1%Z, 736%N); (1%Z, 749%N); ((-1)%Z, 750%N); ((-1)%Z, 751%N); (1%Z, 752%N); ((-1)%Z, 753%N); (1%Z, 754%N); ((-2)%Z, 755%N); ((-1)%Z, 764%N); (1%Z, 765%N)] (* CH3OCH2O2 4788 *);
   [((-1)%Z, 145%N); (1%Z, 146%N); ((-1)%Z, 147%N); (1%Z, 148%N); ((-1)%Z, 149%N); (1%Z, 150%N); (1%Z, 151%N); ((-1)%Z, 152%N); ((-1)%Z, 153%N); (1%Z, 154%N); ((-1)%Z, 155%N); (1%Z, 156%N); ((-1)%Z, 157%N); (1%Z, 158%N); ((-1)%Z, 171%N); (1%Z, 172%N); (1%Z, 199%N); ((-1)%Z, 200%N); (1%Z, 205%N); ((-1)%Z, 206%N); ((-1)%Z, 213%N); (1%Z, 214%N); ((-2)%Z, 215%N); (2%Z, 216%N); (1%Z, 235%N); ((-1)%Z, 236%N); (1%Z, 248%N); ((-1)%Z, 249%N); (1%Z, 254%N); ((-1)%Z, 255%N); (2%Z, 266%N); ((-2)%Z, 267%N); (2%Z, 271%N); (1%Z, 272%N); ((-1)%Z, 273%N); (1%Z, 274%N); ((-1)%Z, 275%N); (1%Z, 278%N); ((-1)%Z, 279%N); ((-1)%Z, 345%N); (1%Z, 346%N); (1%Z, 369%N); ((-1)%Z, 370%N); ((-1)%Z, 536%N); (1%Z, 537%N); (1%Z, 544%N); ((-1)%Z, 545%N); ((-1)%Z, 655%N); (1%Z, 656%N); ((-1)%Z, 681%N); (1%Z, 682%N); ((-1)%Z, 699%N); (1%Z, 700%N); (1%Z, 717%N); ((-1)%Z, 718%N); ((-1)%Z, 733%N); (1%Z, 734%N); ((-1)%Z, 743%N); (1%Z, 744%N); ((-1)%Z, 758%N); (1%Z, 759%N); ((-1)%Z, 787%N); (1%Z, 788%N); ((-1)%Z, 815%N); (1%Z, 816%N); ((-1)%Z, 817%N); (1%Z, 818%N); ((-1)%Z, 831%N); (1%Z, 832%N)] (* CH3O 4792 *);
   [(1%Z, 149%N); ((-1)%Z, 150%N); ((-1)%Z, 151%N); (1%Z, 152%N); (1%Z, 171%N); ((-1)%Z, 172%N); ((-1)%Z, 173%N); (1%Z, 174%N); (1%Z, 179%N); ((-1)%Z, 180%N); ((-1)%Z, 191%N); (1%Z, 192%N); ((-1)%Z, 193%N); (1%Z, 194%N); ((-1)%Z, 195%N); (1%Z, 196%N); ((-1)%Z, 197%N); (1%Z, 198%N); ((-1)%Z, 199%N); (1%Z, 200%N); ((-1)%Z, 201%N); (1%Z, 202%N); ((-1)%Z, 203%N); (1%Z, 204%N); ((-1)%Z, 205%N); (1%Z, 206%N); ((-1)%Z, 207%N); (1%Z, 208%N); ((-1)%Z, 209%N); (1%Z, 210%N); ((-1)%Z, 211%N); (1%Z, 212%N); ((-1)%Z, 213%N); (1%Z, 213%N); ((-1)%Z, 214%N); (1%Z, 214%N); (1%Z, 215%N); ((-1)%Z, 216%N); ((-1)%Z, 264%N); (1%Z, 265%N); (1%Z, 270%N); (1%Z, 276%N); ((-1)%Z, 277%N); (1%Z, 345%N); ((-1)%Z, 346%N); ((-1)%Z, 381%N); (1%Z, 382%N); (1%Z, 536%N); ((-1)%Z, 537%N); (1%Z, 655%N); ((-1)%Z, 656%N); (1%Z, 681%N); ((-1)%Z, 682%N); (1%Z, 699%N); ((-1)%Z, 700%N); (1%Z, 733%N); ((-1)%Z, 734%N); (1%Z, 785%N); ((-1)%Z, 786%N); (1%Z, 815%N); ((-1)%Z, 816%N); (1%Z, 817%N); ((-1)%Z, 818%N)] (* CH3OH 4806 *);
   [(2%Z, 755%N); ((-1)%Z, 756%N); (1%Z, 757%N); (1%Z, 758%N); ((-1)%Z, 759%N); ((-1)%Z, 760%N); (1%Z, 761%N); (1%Z, 762%N); ((-1)%Z, 763%N)] (* CH3OCH2O 4819 *);
   [(1%Z, 771%N); ((-1)%Z, 772%N); (1%Z, 773%N); ((-1)%Z, 774%N); ((-1)%Z, 775%N); (1%Z, 776%N)] (* OCH2OCHO 4822 *);
   [(1%Z, 769%N); ((-1)%Z, 770%N); ((-1)%Z, 771%N); (1%Z, 772%N)] (* HO2CH2OCHO 4825 *);
   [((-1)%Z, 58%N); (1%Z, 59%N); ((-1)%Z, 60%N); (1%Z, 61%N); ((-1)%Z, 62%N); (1%Z, 63%N); ((-1)%Z, 64%N); (1%Z, 65%N); ((-1)%Z, 66%N); (1%Z, 67%N); ((-1)%Z, 68%N); (1%Z, 69%N); ((-1)%Z, 70%N); ((-2)%Z, 71%N); ((-1)%Z, 72%N); (1%Z, 73%N); (1%Z, 74%N); ((-1)%Z, 75%N); ((-1)%Z, 76%N); (1%Z, 77%N); (1%Z, 78%N); ((-1)%Z, 79%N); ((-2)%Z, 84%N); (2%Z, 85%N); ((-1)%Z, 110%N); (1%Z, 111%N); (1%Z, 114%N); ((-1)%Z, 115%N); (1%Z, 116%N); ((-1)%Z, 117%N); (1%Z, 118%N); ((-1)%Z, 119%N); (1%Z, 120%N); ((-1)%Z, 121%N); (1%Z, 122%N); ((-1)%Z, 123%N); (1%Z, 143%N); ((-1)%Z, 144%N); (1%Z, 149%N); ((-1)%Z, 150%N); ((-1)%Z, 169%N); (1%Z, 170%N); ((-1)%Z, 173%N); (1%Z, 174%N); (1%Z, 239%N); ((-1)%Z, 240%N); (1%Z, 260%N); ((-1)%Z, 261%N); (1%Z, 288%N); ((-1)%Z, 289%N); (1%Z, 307%N); ((-1)%Z, 308%N); (1%Z, 317%N); ((-1)%Z, 318%N); (1%Z, 321%N); ((-1)%Z, 322%N); (1%Z, 325%N); ((-1)%Z, 326%N); (1%Z, 377%N); ((-1)%Z, 378%N); (1%Z, 405%N); ((-1)%Z, 406%N); (1%Z, 409%N); ((-1)%Z, 410%N); (1%Z, 451%N); ((-1)%Z, 452%N); (1%Z, 504%N); ((-1)%Z, 505%N); (1%Z, 556%N); ((-1)%Z, 557%N); (1%Z, 577%N); ((-1)%Z, 578%N); ((-1)%Z, 593%N); (1%Z, 594%N); (2%Z, 599%N); ((-2)%Z, 600%N); ((-1)%Z, 665%N); (1%Z, 666%N); ((-1)%Z, 687%N); (1%Z, 688%N); (1%Z, 745%N); ((-1)%Z, 746%N); (1%Z, 751%N); ((-1)%Z, 752%N); ((-1)%Z, 787%N); (1%Z, 788%N); ((-1)%Z, 823%N); (1%Z, 824%N); ((-1)%Z, 825%N); (1%Z, 826%N); ((-1)%Z, 833%N); (1%Z, 834%N)] (* HCO 4827 *);
   [(1%Z, 76%N); ((-1)%Z, 77%N); ((-1)%Z, 78%N); (1%Z, 79%N); ((-1)%Z, 737%N); (1%Z, 738%N)] (* O2CHO 4844 *);
   [(1%Z, 126%N); ((-1)%Z, 127%N); ((-1)%Z, 128%N); (1%Z, 129%N); ((-1)%Z, 130%N); (1%Z, 131%N); (1%Z, 132%N); ((-1)%Z, 133%N); ((-1)%Z, 134%N); ((-1)%Z, 135%N); ((-1)%Z, 136%N); ((-1)%Z, 137%N); ((-1)%Z, 138%N); (1%Z, 139%N); ((-1)%Z, 140%N); ((-1)%Z, 141%N); ((-1)%Z, 142%N); (1%Z, 143%N); ((-1)%Z, 144%N); (1%Z, 431%N); ((-1)%Z, 432%N); (1%Z, 739%N); ((-1)%Z, 740%N)] (* HOCHO 4846 *);
   [(1%Z, 124%N); ((-1)%Z, 125%N); ((-1)%Z, 126%N); (1%Z, 127%N); (1%Z, 181%N); ((-1)%Z, 182%N); ((-1)%Z, 189%N); (1%Z, 190%N); ((-1)%Z, 777%N); (1%Z, 778%N)] (* HOCH2O 4851 *);
   [(1%Z, 775%N); ((-1)%Z, 776%N); (1%Z, 777%N); ((-1)%Z, 778%N); (1%Z, 779%N); ((-1)%Z, 780%N)] (* HOCH2OCO 4854 *);
   [(1%Z, 159%N); ((-1)%Z, 160%N); ((-1)%Z, 161%N); (1%Z, 162%N); ((-1)%Z, 163%N); (1%Z, 164%N); ((-1)%Z, 165%N); (1%Z, 166%N); ((-1)%Z, 167%N); (1%Z, 168%N); ((-1)%Z, 169%N); (1%Z, 170%N); ((-1)%Z, 171%N); (1%Z, 172%N); (1%Z, 173%N); ((-1)%Z, 174%N); ((-1)%Z, 175%N); (1%Z, 176%N); ((-1)%Z, 177%N); (1%Z, 178%N); ((-2)%Z, 179%N); (2%Z, 180%N); ((-1)%Z, 181%N); (1%Z, 182%N); (1%Z, 195%N); ((-1)%Z, 196%N); (1%Z, 197%N); ((-1)%Z, 198%N); (1%Z, 201%N); ((-1)%Z, 202%N); (1%Z, 203%N); ((-1)%Z, 204%N); (1%Z, 207%N); ((-1)%Z, 208%N); (1%Z, 209%N); ((-1)%Z, 210%N); (1%Z, 211%N); ((-1)%Z, 212%N); (1%Z, 213%N); ((-1)%Z, 214%N); (1%Z, 233%N); ((-1)%Z, 234%N); (1%Z, 264%N); ((-1)%Z, 265%N); (1%Z, 381%N); ((-1)%Z, 382%N); (1%Z, 480%N); ((-1)%Z, 481%N); (1%Z, 603%N); ((-1)%Z, 604%N); ((-1)%Z, 779%N); (1%Z, 780%N)] (* CH2OH 4857 *);
   [(1%Z, 260%N); ((-1)%Z, 261%N); (1%Z, 262%N); ((-1)%Z, 263%N); (1%Z, 264%N); ((-1)%Z, 265%N); (1%Z, 268%N); ((-1)%Z, 269%N); ((-1)%Z, 278%N); (1%Z, 279%N); (1%Z, 343%N); ((-1)%Z, 344%N); (1%Z, 353%N); ((-1)%Z, 354%N); (1%Z, 427%N); ((-1)%Z, 428%N); (1%Z, 524%N); ((-1)%Z, 525%N); (1%Z, 538%N); ((-1)%Z, 539%N); (1%Z, 621%N); ((-1)%Z, 622%N); (1%Z, 623%N); ((-1)%Z, 624%N); (1%Z, 661%N); ((-1)%Z, 662%N); (1%Z, 683%N); ((-1)%Z, 684%N); (1%Z, 701%N); ((-1)%Z, 702%N); (1%Z, 727%N); ((-1)%Z, 728%N); (1%Z, 819%N); ((-1)%Z, 820%N); (1%Z, 821%N); ((-1)%Z, 822%N)] (* CH3O2H 4868 *);
   [(1%Z, 258%N); ((-1)%Z, 259%N); ((-1)%Z, 260%N); (1%Z, 261%N); ((-1)%Z, 262%N); (1%Z, 263%N); ((-1)%Z, 264%N); (1%Z, 265%N); ((-1)%Z, 266%N); (1%Z, 267%N); ((-1)%Z, 268%N); (1%Z, 269%N); ((-2)%Z, 270%N); ((-2)%Z, 271%N); ((-1)%Z, 272%N); (1%Z, 273%N); ((-1)%Z, 274%N); (1%Z, 275%N); ((-1)%Z, 276%N); (1%Z, 277%N); ((-1)%Z, 343%N); (1%Z, 344%N); ((-1)%Z, 353%N); (1%Z, 354%N); ((-1)%Z, 369%N); (1%Z, 370%N); ((-1)%Z, 427%N); (1%Z, 428%N); ((-1)%Z, 524%N); (1%Z, 525%N); ((-1)%Z, 538%N); (1%Z, 539%N); ((-1)%Z, 544%N); (1%Z, 545%N); ((-1)%Z, 621%N); (1%Z, 622%N); ((-1)%Z, 623%N); (1%Z, 624%N); ((-1)%Z, 661%N); (1%Z, 662%N); ((-1)%Z, 683%N); (1%Z, 684%N); ((-1)%Z, 701%N); (1%Z, 702%N); ((-1)%Z, 727%N); (1%Z, 728%N); ((-1)%Z, 819%N); (1%Z, 820%N); ((-1)%Z, 821%N); (1%Z, 822%N)] (* CH3O2 4876 *);
   [(1%Z, 78%N); ((-1)%Z, 79%N); (1%Z, 80%N); ((-1)%Z, 81%N); (1%Z, 737%N); ((-1)%Z, 738%N)] (* HO2CHO 4887 *);
   [(1%Z, 735%N); ((-1)%Z, 736%N); (1%Z, 751%N); ((-1)%Z, 752%N); (1%Z, 753%N); ((-1)%Z, 754%N); (1%Z, 756%N); ((-1)%Z, 757%N)] (* CH3OCH2O2H 4889 *);
   [((-1)%Z, 227%N); (1%Z, 228%N); (1%Z, 280%N); ((-1)%Z, 281%N); (1%Z, 282%N); ((-1)%Z, 283%N); (1%Z, 297%N); ((-1)%Z, 298%N); (1%Z, 299%N); ((-1)%Z, 300%N); (1%Z, 301%N); ((-1)%Z, 302%N); ((-1)%Z, 305%N); (1%Z, 306%N); ((-1)%Z, 307%N); (1%Z, 308%N); ((-1)%Z, 309%N); ((-1)%Z, 310%N); ((-1)%Z, 311%N); (1%Z, 312%N); ((-1)%Z, 313%N); (1%Z, 314%N); ((-1)%Z, 315%N); (1%Z, 316%N); (1%Z, 347%N); ((-1)%Z, 348%N); ((-1)%Z, 466%N); (1%Z, 467%N); (1%Z, 474%N); ((-1)%Z, 475%N); (1%Z, 583%N); ((-1)%Z, 584%N)] (* CH2 4892 *);
   [((-1)%Z, 108%N); (1%Z, 109%N); (1%Z, 284%N); ((-1)%Z, 285%N); (1%Z, 311%N); ((-1)%Z, 312%N); (1%Z, 313%N); ((-1)%Z, 314%N); (1%Z, 315%N); ((-1)%Z, 316%N); ((-1)%Z, 317%N); (1%Z, 318%N); ((-1)%Z, 319%N); (1%Z, 320%N); ((-1)%Z, 321%N); (1%Z, 322%N); ((-1)%Z, 323%N); (1%Z, 324%N); ((-1)%Z, 325%N); (1%Z, 326%N); ((-1)%Z, 347%N); (1%Z, 348%N); ((-1)%Z, 492%N); (1%Z, 493%N); ((-1)%Z, 494%N); (1%Z, 495%N); ((-1)%Z, 496%N); (1%Z, 497%N); ((-1)%Z, 550%N); (1%Z, 551%N); (1%Z, 573%N); ((-1)%Z, 574%N)] (* CH 4899 *);
   [(1%Z, 760%N); ((-1)%Z, 761%N); ((-1)%Z, 762%N); (1%Z, 763%N); (1%Z, 781%N); ((-1)%Z, 782%N); (1%Z, 783%N); ((-1)%Z, 784%N); ((-1)%Z, 785%N); (1%Z, 786%N); (1%Z, 787%N); ((-1)%Z, 788%N); (1%Z, 789%N); ((-1)%Z, 790%N); ((-1)%Z, 791%N); (1%Z, 792%N); ((-1)%Z, 793%N); (1%Z, 794%N); ((-1)%Z, 795%N); (1%Z, 796%N); ((-1)%Z, 797%N); (1%Z, 798%N); ((-1)%Z, 799%N); (1%Z, 800%N); ((-1)%Z, 801%N); (1%Z, 802%N); ((-1)%Z, 803%N); (1%Z, 804%N); ((-1)%Z, 805%N); (1%Z, 806%N); ((-1)%Z, 807%N); (1%Z, 808%N); ((-1)%Z, 809%N); (1%Z, 810%N); ((-1)%Z, 811%N); (1%Z, 812%N); ((-1)%Z, 813%N); (1%Z, 814%N); ((-1)%Z, 815%N); (1%Z, 816%N); ((-1)%Z, 817%N); (1%Z, 818%N); ((-1)%Z, 819%N); (1%Z, 820%N); ((-1)%Z, 821%N); (1%Z, 822%N); ((-1)%Z, 823%N); (1%Z, 824%N); ((-1)%Z, 825%N); (1%Z, 826%N)] (* CH3OCHO 4906 *);
   [((-1)%Z, 781%N); (1%Z, 782%N); (1%Z, 793%N); ((-1)%Z, 794%N); (1%Z, 797%N); ((-1)%Z, 798%N); (1%Z, 801%N); ((-1)%Z, 802%N); (1%Z, 805%N); ((-1)%Z, 806%N); (1%Z, 809%N); ((-1)%Z, 810%N); (1%Z, 813%N); ((-1)%Z, 814%N); (1%Z, 817%N); ((-1)%Z, 818%N); (1%Z, 821%N); ((-1)%Z, 822%N); (1%Z, 825%N); ((-1)%Z, 826%N); (1%Z, 827%N); ((-1)%Z, 828%N); (1%Z, 833%N); ((-1)%Z, 834%N)] (* CH2OCHO 4917 *);
   [(1%Z, 395%N); ((-1)%Z, 396%N); (1%Z, 403%N); ((-1)%Z, 404%N); ((-1)%Z, 405%N); (1%Z, 406%N); ((-1)%Z, 407%N); (1%Z, 408%N); (1%Z, 544%N); ((-1)%Z, 545%N); (1%Z, 546%N); ((-1)%Z, 547%N); (1%Z, 548%N); ((-1)%Z, 549%N)] (* C2H4O1X2 4923 *);
   [((-1)%Z, 351%N); (1%Z, 352%N); ((-2)%Z, 357%N); (2%Z, 358%N); (1%Z, 359%N); ((-1)%Z, 360%N); (1%Z, 363%N); ((-1)%Z, 364%N); (1%Z, 391%N); ((-1)%Z, 392%N); (1%Z, 393%N); ((-1)%Z, 394%N); (1%Z, 401%N); ((-1)%Z, 402%N); (1%Z, 484%N); ((-1)%Z, 485%N); (1%Z, 498%N); ((-1)%Z, 499%N); ((-1)%Z, 500%N); (1%Z, 501%N); ((-1)%Z, 502%N); (1%Z, 503%N); ((-1)%Z, 504%N); (1%Z, 505%N); ((-1)%Z, 506%N); (1%Z, 507%N); ((-1)%Z, 508%N); (1%Z, 509%N); ((-1)%Z, 510%N); (1%Z, 511%N); ((-1)%Z, 512%N); (1%Z, 513%N); ((-1)%Z, 514%N); (1%Z, 515%N); ((-1)%Z, 532%N); (1%Z, 533%N); ((-1)%Z, 534%N); (1%Z, 535%N); ((-1)%Z, 536%N); (1%Z, 537%N); ((-1)%Z, 538%N); (1%Z, 539%N); ((-1)%Z, 540%N); (1%Z, 541%N); ((-1)%Z, 542%N); (1%Z, 543%N); ((-1)%Z, 544%N); (1%Z, 545%N); ((-1)%Z, 546%N); (1%Z, 547%N); ((-1)%Z, 548%N); (1%Z, 549%N); (1%Z, 550%N); ((-1)%Z, 551%N); (1%Z, 552%N); ((-1)%Z, 553%N); (1%Z, 569%N); ((-1)%Z, 570%N); (1%Z, 601%N); ((-1)%Z, 602%N); (1%Z, 679%N); ((-1)%Z, 680%N); (1%Z, 713%N); ((-1)%Z, 714%N)] (* C2H4 4927 *);
   [(1%Z, 357%N); ((-1)%Z, 358%N); ((-1)%Z, 498%N); (1%Z, 499%N); (1%Z, 502%N); ((-1)%Z, 503%N); (1%Z, 508%N); ((-1)%Z, 509%N); (1%Z, 532%N); ((-1)%Z, 533%N); (1%Z, 534%N); ((-1)%Z, 535%N); (1%Z, 536%N); ((-1)%Z, 537%N); (1%Z, 538%N); ((-1)%Z, 539%N); (1%Z, 540%N); ((-1)%Z, 541%N); (1%Z, 542%N); ((-1)%Z, 543%N); (1%Z, 554%N); ((-1)%Z, 555%N); ((-1)%Z, 556%N); (1%Z, 557%N); ((-1)%Z, 558%N); (1%Z, 559%N); ((-1)%Z, 560%N); ((-1)%Z, 561%N); (1%Z, 562%N); ((-1)%Z, 563%N); (1%Z, 564%N); ((-1)%Z, 565%N); (1%Z, 566%N); ((-1)%Z, 567%N); (1%Z, 568%N); ((-2)%Z, 569%N); (2%Z, 570%N); (1%Z, 593%N); ((-1)%Z, 594%N); ((-1)%Z, 665%N); (1%Z, 666%N); ((-1)%Z, 679%N); (1%Z, 680%N); ((-1)%Z, 685%N); (1%Z, 686%N); ((-1)%Z, 713%N); (1%Z, 714%N)] (* C2H3 4940 *);
   [((-1)%Z, 329%N); (1%Z, 330%N); (1%Z, 331%N); ((-1)%Z, 332%N); (1%Z, 333%N); ((-1)%Z, 334%N); (1%Z, 335%N); ((-1)%Z, 336%N); (1%Z, 337%N); ((-1)%Z, 338%N); (1%Z, 339%N); ((-1)%Z, 340%N); (1%Z, 341%N); ((-1)%Z, 342%N); (1%Z, 343%N); ((-1)%Z, 344%N); (1%Z, 345%N); ((-1)%Z, 346%N); (1%Z, 347%N); ((-1)%Z, 348%N); (1%Z, 349%N); ((-1)%Z, 350%N); (1%Z, 351%N); ((-1)%Z, 352%N); (1%Z, 357%N); ((-1)%Z, 358%N); ((-1)%Z, 359%N); (1%Z, 360%N); (1%Z, 361%N); ((-1)%Z, 362%N); ((-1)%Z, 363%N); (1%Z, 364%N); ((-1)%Z, 365%N); (1%Z, 366%N); ((-1)%Z, 367%N); (1%Z, 368%N); ((-1)%Z, 369%N); (1%Z, 370%N); (1%Z, 385%N); ((-1)%Z, 386%N); ((-1)%Z, 389%N); (1%Z, 390%N); ((-1)%Z, 391%N); (1%Z, 392%N); ((-1)%Z, 393%N); (1%Z, 394%N); ((-1)%Z, 395%N); (1%Z, 396%N); ((-1)%Z, 397%N); (1%Z, 398%N); (1%Z, 453%N); ((-1)%Z, 454%N); (1%Z, 482%N); ((-1)%Z, 483%N); (1%Z, 605%N); ((-1)%Z, 606%N); ((-1)%Z, 633%N); (1%Z, 634%N); ((-1)%Z, 687%N); (1%Z, 688%N); ((-1)%Z, 703%N); (1%Z, 704%N); ((-1)%Z, 715%N); (1%Z, 716%N)] (* C2H5 4950 *);
   [((-1)%Z, 86%N); (1%Z, 87%N); ((-1)%Z, 88%N); (1%Z, 89%N); ((-1)%Z, 90%N); (1%Z, 91%N); ((-1)%Z, 92%N); (1%Z, 93%N); ((-1)%Z, 94%N); (1%Z, 95%N); ((-1)%Z, 96%N); (1%Z, 97%N); ((-1)%Z, 98%N); (1%Z, 99%N); ((-1)%Z, 100%N); (1%Z, 101%N); ((-1)%Z, 102%N); (1%Z, 103%N); ((-1)%Z, 104%N); (1%Z, 105%N); ((-1)%Z, 106%N); (1%Z, 107%N); (1%Z, 108%N); ((-1)%Z, 109%N)] (* OHY 4963 *);
   [((-1)%Z, 783%N); (1%Z, 784%N); (1%Z, 791%N); ((-1)%Z, 792%N); (1%Z, 795%N); ((-1)%Z, 796%N); (1%Z, 799%N); ((-1)%Z, 800%N); (1%Z, 803%N); ((-1)%Z, 804%N); (1%Z, 807%N); ((-1)%Z, 808%N); (1%Z, 811%N); ((-1)%Z, 812%N); (1%Z, 815%N); ((-1)%Z, 816%N); (1%Z, 819%N); ((-1)%Z, 820%N); (1%Z, 823%N); ((-1)%Z, 824%N); ((-1)%Z, 827%N); (1%Z, 828%N); (1%Z, 829%N); ((-1)%Z, 830%N); (1%Z, 831%N); ((-1)%Z, 832%N)] (* CH3OCO 4968 *);
   [(1%Z, 187%N); ((-1)%Z, 188%N); (1%Z, 189%N); ((-1)%Z, 190%N)] (* HOCH2O2H 4975 *);
   [(1%Z, 185%N); ((-1)%Z, 186%N); ((-1)%Z, 187%N); (1%Z, 188%N)] (* HOCH2O2 4977 *);
   [(1%Z, 667%N); ((-1)%Z, 668%N); (1%Z, 669%N); ((-1)%Z, 670%N); (1%Z, 671%N); ((-1)%Z, 672%N); (1%Z, 673%N); ((-1)%Z, 674%N); (1%Z, 675%N); ((-1)%Z, 676%N); (1%Z, 677%N); ((-1)%Z, 678%N); (1%Z, 679%N); ((-1)%Z, 680%N); (1%Z, 681%N); ((-1)%Z, 682%N); (1%Z, 683%N); ((-1)%Z, 684%N); (1%Z, 685%N); ((-1)%Z, 686%N)] (* C2H3CO 4979 *);
   [(1%Z, 665%N); ((-1)%Z, 666%N); ((-1)%Z, 667%N); (1%Z, 668%N); ((-1)%Z, 669%N); (1%Z, 670%N); ((-1)%Z, 671%N); (1%Z, 672%N); ((-1)%Z, 673%N); (1%Z, 674%N); ((-1)%Z, 675%N); (1%Z, 676%N); ((-1)%Z, 677%N); (1%Z, 678%N); ((-1)%Z, 679%N); (1%Z, 680%N); ((-1)%Z, 681%N); (1%Z, 682%N); ((-1)%Z, 683%N); (1%Z, 684%N)] (* C2H3CHO 4984 *);
   [(1%Z, 413%N); ((-1)%Z, 414%N); (1%Z, 417%N); ((-1)%Z, 418%N); (1%Z, 419%N); ((-1)%Z, 420%N); (1%Z, 421%N); ((-1)%Z, 422%N); (1%Z, 423%N); ((-1)%Z, 424%N); (1%Z, 425%N); ((-1)%Z, 426%N); (1%Z, 427%N); ((-1)%Z, 428%N); (1%Z, 429%N); ((-1)%Z, 430%N); ((-1)%Z, 435%N); (1%Z, 436%N); ((-1)%Z, 437%N); (1%Z, 438%N); ((-1)%Z, 439%N); (1%Z, 440%N); ((-1)%Z, 441%N); (1%Z, 442%N); ((-1)%Z, 443%N); (1%Z, 444%N); ((-1)%Z, 468%N); (1%Z, 469%N); (1%Z, 645%N); ((-1)%Z, 646%N); (1%Z, 747%N); ((-1)%Z, 748%N); (1%Z, 753%N); ((-1)%Z, 754%N)] (* CH3CO 4989 *);
   [(1%Z, 355%N); ((-1)%Z, 356%N); (1%Z, 377%N); ((-1)%Z, 378%N); (1%Z, 379%N); ((-1)%Z, 380%N); (1%Z, 381%N); ((-1)%Z, 382%N); (1%Z, 383%N); ((-1)%Z, 384%N); (1%Z, 385%N); ((-1)%Z, 386%N); ((-1)%Z, 387%N); (1%Z, 388%N); (1%Z, 540%N); ((-1)%Z, 541%N); (1%Z, 707%N); ((-1)%Z, 708%N)] (* C2H5O2H 4997 *);
   [((-1)%Z, 355%N); (1%Z, 356%N); ((-1)%Z, 377%N); (1%Z, 378%N); ((-1)%Z, 379%N); (1%Z, 380%N); ((-1)%Z, 381%N); (1%Z, 382%N); ((-1)%Z, 383%N); (1%Z, 384%N); ((-1)%Z, 385%N); (1%Z, 386%N); (1%Z, 389%N); ((-1)%Z, 390%N); ((-1)%Z, 399%N); (1%Z, 400%N); ((-1)%Z, 401%N); (1%Z, 402%N); ((-1)%Z, 403%N); (1%Z, 404%N); ((-1)%Z, 540%N); (1%Z, 541%N); ((-1)%Z, 546%N); (1%Z, 547%N); ((-1)%Z, 707%N); (1%Z, 708%N)] (* C2H5O2 5002 *);
   [(1%Z, 437%N); ((-1)%Z, 438%N); (1%Z, 439%N); ((-1)%Z, 440%N); (1%Z, 441%N); ((-1)%Z, 442%N); (1%Z, 459%N); ((-1)%Z, 460%N); (1%Z, 463%N); ((-1)%Z, 464%N); (1%Z, 466%N); ((-1)%Z, 467%N); (1%Z, 468%N); ((-1)%Z, 469%N); ((-1)%Z, 470%N); (1%Z, 471%N); ((-1)%Z, 472%N); (1%Z, 473%N); ((-1)%Z, 474%N); (1%Z, 475%N); ((-1)%Z, 476%N); (1%Z, 477%N); ((-1)%Z, 478%N); (1%Z, 479%N); ((-1)%Z, 480%N); (1%Z, 481%N); ((-1)%Z, 482%N); (1%Z, 483%N); ((-1)%Z, 484%N); (1%Z, 485%N); (1%Z, 494%N); ((-1)%Z, 495%N); (1%Z, 589%N); ((-1)%Z, 590%N); (1%Z, 597%N); ((-1)%Z, 598%N); ((-1)%Z, 663%N); (1%Z, 664%N)] (* CH2CO 5009 *);
   [(1%Z, 415%N); ((-1)%Z, 416%N); (1%Z, 433%N); ((-1)%Z, 434%N); ((-1)%Z, 459%N); (1%Z, 460%N); ((-1)%Z, 461%N); (1%Z, 462%N); ((-1)%Z, 463%N); (1%Z, 464%N); ((-1)%Z, 465%N); (1%Z, 506%N); ((-1)%Z, 507%N); (1%Z, 516%N); ((-1)%Z, 517%N); (1%Z, 518%N); ((-1)%Z, 519%N); (1%Z, 520%N); ((-1)%Z, 521%N); (1%Z, 522%N); ((-1)%Z, 523%N); (1%Z, 524%N); ((-1)%Z, 525%N); (1%Z, 526%N); ((-1)%Z, 527%N); (1%Z, 558%N); ((-1)%Z, 559%N)] (* CH2CHO 5018 *);
   [(1%Z, 429%N); ((-1)%Z, 430%N); (1%Z, 445%N); ((-1)%Z, 446%N); (1%Z, 447%N); ((-1)%Z, 448%N); (1%Z, 449%N); ((-1)%Z, 450%N); (1%Z, 451%N); ((-1)%Z, 452%N); (1%Z, 453%N); ((-1)%Z, 454%N); ((-1)%Z, 455%N); (1%Z, 456%N); (1%Z, 542%N); ((-1)%Z, 543%N); (1%Z, 711%N); ((-1)%Z, 712%N)] (* CH3CO3H 5025 *);
   [((-1)%Z, 429%N); (1%Z, 430%N); (1%Z, 443%N); ((-1)%Z, 444%N); ((-1)%Z, 445%N); (1%Z, 446%N); ((-1)%Z, 447%N); (1%Z, 448%N); ((-1)%Z, 449%N); (1%Z, 450%N); ((-1)%Z, 451%N); (1%Z, 452%N); ((-1)%Z, 453%N); (1%Z, 454%N); ((-1)%Z, 542%N); (1%Z, 543%N); ((-1)%Z, 711%N); (1%Z, 712%N)] (* CH3CO3 5030 *);
   [(1%Z, 500%N); ((-1)%Z, 501%N); (1%Z, 565%N); ((-1)%Z, 566%N); (1%Z, 581%N); ((-1)%Z, 582%N); ((-1)%Z, 595%N); (1%Z, 596%N); ((-1)%Z, 597%N); (1%Z, 598%N); ((-1)%Z, 599%N); (1%Z, 600%N)] (* H2CC 5035 *);
   [(1%Z, 496%N); ((-1)%Z, 497%N); ((-1)%Z, 554%N); (1%Z, 555%N); (1%Z, 561%N); ((-1)%Z, 562%N); (1%Z, 563%N); ((-1)%Z, 564%N); (1%Z, 567%N); ((-1)%Z, 568%N); (1%Z, 569%N); ((-1)%Z, 570%N); (1%Z, 571%N); ((-1)%Z, 572%N); (1%Z, 579%N); ((-1)%Z, 580%N); ((-1)%Z, 581%N); (1%Z, 582%N); ((-1)%Z, 583%N); (1%Z, 584%N); ((-1)%Z, 585%N); (1%Z, 586%N); ((-1)%Z, 587%N); (1%Z, 588%N); ((-1)%Z, 589%N); (1%Z, 590%N); ((-1)%Z, 591%N); (1%Z, 592%N); ((-1)%Z, 593%N); (1%Z, 594%N); (1%Z, 595%N); ((-1)%Z, 596%N)] (* C2H2 5039 *);
   [((-1)%Z, 80%N); (1%Z, 81%N); (1%Z, 82%N); ((-1)%Z, 83%N); ((-1)%Z, 132%N); (1%Z, 133%N); ((-1)%Z, 139%N); (1%Z, 140%N); ((-1)%Z, 143%N); (1%Z, 144%N); ((-1)%Z, 739%N); (1%Z, 740%N); ((-1)%Z, 773%N); (1%Z, 774%N); ((-1)%Z, 789%N); (1%Z, 790%N)] (* OCHO 5047 *);
   [(1%Z, 607%N); ((-1)%Z, 608%N); (1%Z, 609%N); ((-1)%Z, 610%N); (1%Z, 613%N); ((-1)%Z, 614%N); (1%Z, 617%N); ((-1)%Z, 618%N); (1%Z, 621%N); ((-1)%Z, 622%N); (1%Z, 625%N); ((-1)%Z, 626%N); (1%Z, 629%N); ((-1)%Z, 630%N); (1%Z, 633%N); ((-1)%Z, 634%N); ((-1)%Z, 635%N); (1%Z, 636%N); ((-1)%Z, 637%N); (1%Z, 638%N); ((-1)%Z, 639%N); (1%Z, 640%N); ((-1)%Z, 641%N); (1%Z, 642%N); ((-1)%Z, 643%N); (1%Z, 644%N)] (* SC2H4OH 5051 *);
   [((-1)%Z, 601%N); (1%Z, 602%N); ((-1)%Z, 603%N); (1%Z, 604%N); ((-1)%Z, 605%N); (1%Z, 606%N); ((-1)%Z, 607%N); (1%Z, 608%N); ((-1)%Z, 609%N); (1%Z, 610%N); ((-1)%Z, 611%N); (1%Z, 612%N); ((-1)%Z, 613%N); (1%Z, 614%N); ((-1)%Z, 615%N); (1%Z, 616%N); ((-1)%Z, 617%N); (1%Z, 618%N); ((-1)%Z, 619%N); (1%Z, 620%N); ((-1)%Z, 621%N); (1%Z, 622%N); ((-1)%Z, 623%N); (1%Z, 624%N); ((-1)%Z, 625%N); (1%Z, 626%N); ((-1)%Z, 627%N); (1%Z, 628%N); ((-1)%Z, 629%N); (1%Z, 630%N); ((-1)%Z, 631%N); (1%Z, 632%N); ((-1)%Z, 633%N); (1%Z, 634%N); (1%Z, 705%N); ((-1)%Z, 706%N)] (* C2H5OH 5058 *);
   [(1%Z, 455%N); ((-1)%Z, 456%N); ((-1)%Z, 457%N); (1%Z, 458%N)] (* CH3CO2 5066 *);
   [(1%Z, 365%N); ((-1)%Z, 366%N); (1%Z, 371%N); ((-1)%Z, 372%N); ((-1)%Z, 375%N); (1%Z, 376%N); (1%Z, 397%N); ((-1)%Z, 398%N); (1%Z, 399%N); ((-1)%Z, 400%N); (1%Z, 407%N); ((-1)%Z, 408%N); ((-1)%Z, 409%N); (1%Z, 410%N); ((-1)%Z, 411%N); (1%Z, 412%N); ((-1)%Z, 413%N); (1%Z, 414%N); ((-1)%Z, 415%N); (1%Z, 416%N); ((-1)%Z, 417%N); (1%Z, 418%N); ((-1)%Z, 419%N); (1%Z, 420%N); ((-1)%Z, 421%N); (1%Z, 422%N); ((-1)%Z, 423%N); (1%Z, 424%N); ((-1)%Z, 425%N); (1%Z, 426%N); ((-1)%Z, 427%N); (1%Z, 428%N); ((-1)%Z, 429%N); (1%Z, 430%N); ((-1)%Z, 431%N); (1%Z, 432%N); ((-1)%Z, 433%N); (1%Z, 434%N); (1%Z, 512%N); ((-1)%Z, 513%N); (1%Z, 528%N); ((-1)%Z, 529%N); (1%Z, 530%N); ((-1)%Z, 531%N); (1%Z, 635%N); ((-1)%Z, 636%N); (1%Z, 641%N); ((-1)%Z, 642%N); ((-1)%Z, 747%N); (1%Z, 748%N); ((-1)%Z, 753%N); (1%Z, 754%N)] (* CH3CHO 5068 *);
   [(1%Z, 470%N); ((-1)%Z, 471%N); (1%Z, 476%N); ((-1)%Z, 477%N); (1%Z, 478%N); ((-1)%Z, 479%N); ((-1)%Z, 486%N); ((-1)%Z, 487%N); ((-1)%Z, 488%N); (1%Z, 489%N); ((-1)%Z, 490%N); ((-1)%Z, 491%N); (1%Z, 492%N); ((-1)%Z, 493%N); ((-1)%Z, 496%N); (1%Z, 497%N); (1%Z, 575%N); ((-1)%Z, 576%N); (1%Z, 585%N); ((-1)%Z, 586%N)] (* HCCO 5079 *);
   [(1%Z, 237%N); ((-1)%Z, 238%N); ((-1)%Z, 239%N); (1%Z, 240%N); ((-1)%Z, 241%N); (1%Z, 242%N); ((-1)%Z, 243%N); ((-1)%Z, 244%N); ((-1)%Z, 245%N); ((-1)%Z, 246%N); (1%Z, 247%N)] (* HCOH 5084 *);
   [(1%Z, 514%N); ((-1)%Z, 515%N); ((-1)%Z, 516%N); (1%Z, 517%N); ((-1)%Z, 518%N); (1%Z, 519%N); ((-1)%Z, 520%N); (1%Z, 521%N); ((-1)%Z, 522%N); (1%Z, 523%N); ((-1)%Z, 524%N); (1%Z, 525%N); ((-1)%Z, 526%N); (1%Z, 527%N); ((-1)%Z, 528%N); (1%Z, 529%N); ((-1)%Z, 530%N); (1%Z, 531%N); (1%Z, 637%N); ((-1)%Z, 638%N); (1%Z, 643%N); ((-1)%Z, 644%N)] (* C2H3OH 5087 *);
   [(1%Z, 367%N); ((-1)%Z, 368%N); (1%Z, 369%N); ((-1)%Z, 370%N); ((-1)%Z, 371%N); (1%Z, 372%N); (1%Z, 373%N); ((-1)%Z, 374%N); (1%Z, 375%N); ((-1)%Z, 376%N); (1%Z, 387%N); ((-1)%Z, 388%N); (1%Z, 546%N); ((-1)%Z, 547%N); (1%Z, 611%N); ((-1)%Z, 612%N); (1%Z, 615%N); ((-1)%Z, 616%N); (1%Z, 619%N); ((-1)%Z, 620%N); (1%Z, 623%N); ((-1)%Z, 624%N); (1%Z, 627%N); ((-1)%Z, 628%N); (1%Z, 631%N); ((-1)%Z, 632%N); (1%Z, 639%N); ((-1)%Z, 640%N); ((-1)%Z, 705%N); (1%Z, 706%N)] (* C2H5O 5093 *);
   [(1%Z, 689%N); ((-1)%Z, 690%N); (1%Z, 691%N); ((-1)%Z, 692%N); (1%Z, 693%N); ((-1)%Z, 694%N); (1%Z, 695%N); ((-1)%Z, 696%N); (1%Z, 697%N); ((-1)%Z, 698%N); (1%Z, 699%N); ((-1)%Z, 700%N); (1%Z, 701%N); ((-1)%Z, 702%N); (1%Z, 703%N); ((-1)%Z, 704%N); (1%Z, 705%N); ((-1)%Z, 706%N); (1%Z, 707%N); ((-1)%Z, 708%N); (1%Z, 709%N); ((-1)%Z, 710%N); (1%Z, 711%N); ((-1)%Z, 712%N); (1%Z, 713%N); ((-1)%Z, 714%N); (1%Z, 715%N); ((-1)%Z, 716%N)] (* C2H5CO 5100 *);
   [(1%Z, 687%N); ((-1)%Z, 688%N); ((-1)%Z, 689%N); (1%Z, 690%N); ((-1)%Z, 691%N); (1%Z, 692%N); ((-1)%Z, 693%N); (1%Z, 694%N); ((-1)%Z, 695%N); (1%Z, 696%N); ((-1)%Z, 697%N); (1%Z, 698%N); ((-1)%Z, 699%N); (1%Z, 700%N); ((-1)%Z, 701%N); (1%Z, 702%N); ((-1)%Z, 703%N); (1%Z, 704%N); ((-1)%Z, 705%N); (1%Z, 706%N); ((-1)%Z, 707%N); (1%Z, 708%N); ((-1)%Z, 709%N); (1%Z, 710%N); ((-1)%Z, 711%N); (1%Z, 712%N); ((-1)%Z, 713%N); (1%Z, 714%N)] (* C2H5CHO 5107 *);
   [((-1)%Z, 571%N); (1%Z, 572%N); ((-1)%Z, 573%N); (1%Z, 574%N); ((-1)%Z, 575%N); (1%Z, 576%N); ((-1)%Z, 577%N); (1%Z, 578%N); ((-1)%Z, 579%N); (1%Z, 580%N); (1%Z, 587%N); ((-1)%Z, 588%N)] (* C2H 5114 *);
   [((-1)%Z, 645%N); (1%Z, 646%N); ((-1)%Z, 647%N); (1%Z, 648%N); ((-1)%Z, 649%N); (1%Z, 650%N); ((-1)%Z, 651%N); (1%Z, 652%N); ((-1)%Z, 653%N); (1%Z, 654%N); ((-1)%Z, 655%N); (1%Z, 656%N); ((-1)%Z, 657%N); (1%Z, 658%N); ((-1)%Z, 659%N); (1%Z, 660%N); ((-1)%Z, 661%N); (1%Z, 662%N)] (* CH3COCH3 5118 *);
   [(1%Z, 647%N); ((-1)%Z, 648%N); (1%Z, 649%N); ((-1)%Z, 650%N); (1%Z, 651%N); ((-1)%Z, 652%N); (1%Z, 653%N); ((-1)%Z, 654%N); (1%Z, 655%N); ((-1)%Z, 656%N); (1%Z, 657%N); ((-1)%Z, 658%N); (1%Z, 659%N); ((-1)%Z, 660%N); (1%Z, 661%N); ((-1)%Z, 662%N); (1%Z, 663%N); ((-1)%Z, 664%N)] (* CH3COCH2 5123 *);
   [(1%Z, 193%N); ((-1)%Z, 194%N); (1%Z, 229%N); ((-1)%Z, 230%N); ((-1)%Z, 280%N); (1%Z, 281%N); ((-1)%Z, 282%N); (1%Z, 283%N); ((-1)%Z, 284%N); (1%Z, 285%N); ((-1)%Z, 286%N); (1%Z, 287%N); ((-1)%Z, 288%N); (1%Z, 289%N); ((-1)%Z, 290%N); (1%Z, 291%N); ((-1)%Z, 292%N); (1%Z, 293%N); ((-1)%Z, 294%N); ((-1)%Z, 295%N); (1%Z, 296%N); ((-1)%Z, 297%N); (1%Z, 298%N); ((-1)%Z, 299%N); (1%Z, 300%N); ((-1)%Z, 301%N); (1%Z, 302%N); ((-1)%Z, 303%N); (1%Z, 304%N); ((-1)%Z, 349%N); (1%Z, 350%N); ((-1)%Z, 484%N); (1%Z, 485%N); (1%Z, 488%N); ((-1)%Z, 489%N); ((-1)%Z, 552%N); (1%Z, 553%N)] (* CH2Y 5128 *);
   [(1%Z, 183%N); ((-1)%Z, 184%N); ((-1)%Z, 185%N); (1%Z, 186%N)] (* OCH2O2H 5136 *);
   [] (* HE 5138 *);
   [((-1)%Z, 96%N); (1%Z, 96%N); ((-1)%Z, 97%N); (1%Z, 97%N); ((-1)%Z, 282%N); (1%Z, 282%N); ((-1)%Z, 283%N); (1%Z, 283%N)] (* AR 5140 *)].

(** AramcoMech_DMEonly_74spec; GetLindRateCoeff is src/equations/ideal_gas_mix/mechanism/AramcoMech_DMEonly_74spec.cpp:5144-5176 *)
Definition aramco74 : tables := mkTables aramco74_weights aramco74_third aramco74_reactions aramco74_production LindFloor.
