(** The mechanism Zhao2008Dme: tables transcribed from src/equations/ideal_gas_mix/mechanism/Zhao2008Dme.cpp and include/fub/equations/ideal_gas_mix/mechanism/Zhao2008Dme.hpp.
    Decimal and hexadecimal literals of the code are written as the fractions which they denote. *)
From Coq Require Import String List ZArith QArith.
From Verif Require Import MechanismModel.
Import ListNotations.
Local Open Scope Q_scope.

(** The labels of the species without the leading s, include/fub/equations/ideal_gas_mix/mechanism/Zhao2008Dme.hpp:38-92 *)
Definition zhao_labels : list string := ["H"; "H2"; "CH2"; "CH2S"; "CH3"; "O"; "CH4"; "OH"; "H2O"; "C2H"; "C2H2"; "C2H3"; "CO"; "N2"; "C2H4"; "HCO"; "C2H5"; "CH2O"; "C2H6"; "CH2OH"; "CH3O"; "O2"; "CH3OH"; "HO2"; "H2O2"; "HCCO"; "CH2CO"; "HCCOH"; "CH2HCO"; "CH3CO"; "CO2"; "CH3HCO"; "OCHO"; "CH3CHOH"; "C2H4OH"; "CH3CH2O"; "CH3OCH2"; "HCOOH"; "CH3OCH3"; "C2H5OH"; "HOCH2O"; "CH3OCO"; "CH3OCHO"; "CH3OCH2O"; "CH3OCH2OH"; "OCH2OCHO"; "HOCH2OCO"; "HOC2H4O2"; "CH3OCH2O2"; "CH2OCH2O2H"; "CH3OCH2O2H"; "HO2CH2OCHO"; "O2CH2OCH2O2H"; "AR"; "HE"]%string.

(** [getSpeciesNames], src/equations/ideal_gas_mix/mechanism/Zhao2008Dme.cpp:2764-2776 *)
Definition zhao_names : list string := ["H"; "H2"; "CH2"; "CH2S"; "CH3"; "O"; "CH4"; "OH "; "H2O"; "C2H"; "C2H2"; "C2H3"; "CO"; "N2"; "C2H4"; "HCO"; "C2H5"; "CH2O"; "C2H6"; "CH2OH"; "CH3O"; "O2"; "CH3OH"; "HO2"; "H2O2"; "HCCO"; "CH2CO"; "HCCOH"; "CH2HCO "; "CH3CO"; "CO2"; "CH3HCO "; "OCHO"; "CH3CHOH"; "C2H4OH "; "CH3CH2O"; "CH3OCH2"; "HCOOH"; "CH3OCH3"; "C2H5OH"; "HOCH2O"; "CH3OCO"; "CH3OCHO"; "CH3OCH2O"; "CH3OCH2OH"; "OCH2OCHO"; "HOCH2OCO"; "HOC2H4O2"; "CH3OCH2O2"; "CH2OCH2O2H"; "CH3OCH2O2H"; "HO2CH2OCHO"; "O2CH2OCH2O2H"; "AR"; "HE"]%string.

(** [getMolarMass], src/equations/ideal_gas_mix/mechanism/Zhao2008Dme.cpp:2707-2761 *)
Definition zhao_weights : list Q :=
  [(1134907106097365 # 1125899906842624) (* H *);
   (1134907106097365 # 562949953421312) (* H2 *);
   (3947968023343661 # 281474976710656) (* CH2 *);
   (3947968023343661 # 281474976710656) (* CH2S *);
   (2115847399934001 # 140737488355328) (* CH3 *);
   (16 # 1) (* O *);
   (564427697049043 # 35184372088832) (* CH4 *);
   (4787326403894837 # 281474976710656) (* OH *);
   (2535526590209589 # 140737488355328) (* H2O *);
   (3522377858557149 # 140737488355328) (* C2H *);
   (458030155852415 # 17592186044416) (* C2H2 *);
   (7612209270162981 # 281474976710656) (* C2H3 *);
   (3942057048832737 # 140737488355328) (* CO *);
   (7886928847432581 # 281474976710656) (* N2 *);
   (3947968023343661 # 140737488355328) (* C2H4 *);
   (1020980109273727 # 35184372088832) (* HCO *);
   (8179662823211663 # 281474976710656) (* C2H5 *);
   (2112891912678539 # 70368744177664) (* CH2O *);
   (2115847399934001 # 70368744177664) (* C2H6 *);
   (4367647213619249 # 140737488355328) (* CH2OH *);
   (4367647213619249 # 140737488355328) (* CH3O *);
   (32 # 1) (* O2 *);
   (1127377650470355 # 35184372088832) (* CH3OH *);
   (4645463015632667 # 140737488355328) (* HO2 *);
   (4787326403894837 # 140737488355328) (* H2O2 *);
   (5774177672242397 # 140737488355328) (* HCCO *);
   (739505132563071 # 17592186044416) (* CH2CO *);
   (4234791024611819 # 70368744177664) (* HCCOH *);
   (3028952224383369 # 70368744177664) (* CH2HCO *);
   (3028952224383369 # 70368744177664) (* CH3CO *);
   (6193856862517985 # 140737488355328) (* CO2 *);
   (6199767837028909 # 140737488355328) (* CH3HCO *);
   (1583930062695039 # 35184372088832) (* OCHO *);
   (792703903161385 # 17592186044416) (* CH3CHOH *);
   (792703903161385 # 17592186044416) (* C2H4OH *);
   (792703903161385 # 17592186044416) (* CH3CH2O *);
   (792703903161385 # 17592186044416) (* CH3OCH2 *);
   (3238791819521163 # 70368744177664) (* HCOOH *);
   (3241747306776625 # 70368744177664) (* CH3OCH3 *);
   (3241747306776625 # 70368744177664) (* C2H5OH *);
   (6619447027304497 # 140737488355328) (* HOCH2O *);
   (4154852131225993 # 70368744177664) (* CH3OCO *);
   (2112891912678539 # 35184372088832) (* CH3OCHO *);
   (1074178879872041 # 17592186044416) (* CH3OCH2O *);
   (4367647213619249 # 70368744177664) (* CH3OCH2OH *);
   (5280752038068617 # 70368744177664) (* OCH2OCHO *);
   (5280752038068617 # 70368744177664) (* HOCH2OCO *);
   (1355653856582697 # 17592186044416) (* HOC2H4O2 *);
   (1355653856582697 # 17592186044416) (* CH3OCH2O2 *);
   (1355653856582697 # 17592186044416) (* CH2OCH2O2H *);
   (5493547120461873 # 70368744177664) (* CH3OCH2O2H *);
   (3238791819521163 # 35184372088832) (* HO2CH2OCHO *);
   (1918603810004009 # 17592186044416) (* O2CH2OCH2O2H *);
   (5622181184818643 # 140737488355328) (* AR *);
   (5680080587528025 # 281474976710656) (* HE *)].

(** The concentrations of third bodies as combinations of concentrations, src/equations/ideal_gas_mix/mechanism/Zhao2008Dme.cpp:46-473 *)
Definition zhao_third : list (list (Q * nat)) :=
  [[((1 # 1)%Q, 0)%nat; ((5 # 2)%Q, 1)%nat; ((1 # 1)%Q, 2)%nat; ((1 # 1)%Q, 3)%nat; ((1 # 1)%Q, 4)%nat; ((1 # 1)%Q, 5)%nat; ((1 # 1)%Q, 6)%nat; ((1 # 1)%Q, 7)%nat; ((12 # 1)%Q, 8)%nat; ((1 # 1)%Q, 9)%nat; ((1 # 1)%Q, 10)%nat; ((1 # 1)%Q, 11)%nat; ((4278419646001971 # 2251799813685248)%Q, 12)%nat; ((1 # 1)%Q, 13)%nat; ((1 # 1)%Q, 14)%nat; ((1 # 1)%Q, 15)%nat; ((1 # 1)%Q, 16)%nat; ((1 # 1)%Q, 17)%nat; ((1 # 1)%Q, 18)%nat; ((1 # 1)%Q, 19)%nat; ((1 # 1)%Q, 20)%nat; ((1 # 1)%Q, 21)%nat; ((1 # 1)%Q, 22)%nat; ((1 # 1)%Q, 23)%nat; ((1 # 1)%Q, 24)%nat; ((1 # 1)%Q, 25)%nat; ((1 # 1)%Q, 26)%nat; ((1 # 1)%Q, 27)%nat; ((1 # 1)%Q, 28)%nat; ((1 # 1)%Q, 29)%nat; ((4278419646001971 # 1125899906842624)%Q, 30)%nat; ((1 # 1)%Q, 31)%nat; ((1 # 1)%Q, 32)%nat; ((1 # 1)%Q, 33)%nat; ((1 # 1)%Q, 34)%nat; ((1 # 1)%Q, 35)%nat; ((1 # 1)%Q, 36)%nat; ((1 # 1)%Q, 37)%nat; ((1 # 1)%Q, 38)%nat; ((1 # 1)%Q, 39)%nat; ((1 # 1)%Q, 40)%nat; ((1 # 1)%Q, 41)%nat; ((1 # 1)%Q, 42)%nat; ((1 # 1)%Q, 43)%nat; ((1 # 1)%Q, 44)%nat; ((1 # 1)%Q, 45)%nat; ((1 # 1)%Q, 46)%nat; ((1 # 1)%Q, 47)%nat; ((1 # 1)%Q, 48)%nat; ((1 # 1)%Q, 49)%nat; ((1 # 1)%Q, 50)%nat; ((1 # 1)%Q, 51)%nat; ((1 # 1)%Q, 52)%nat] (* mM1 *);
   [((1 # 1)%Q, 0)%nat; ((5 # 2)%Q, 1)%nat; ((1 # 1)%Q, 2)%nat; ((1 # 1)%Q, 3)%nat; ((1 # 1)%Q, 4)%nat; ((1 # 1)%Q, 5)%nat; ((1 # 1)%Q, 6)%nat; ((1 # 1)%Q, 7)%nat; ((12 # 1)%Q, 8)%nat; ((1 # 1)%Q, 9)%nat; ((1 # 1)%Q, 10)%nat; ((1 # 1)%Q, 11)%nat; ((4278419646001971 # 2251799813685248)%Q, 12)%nat; ((1 # 1)%Q, 13)%nat; ((1 # 1)%Q, 14)%nat; ((1 # 1)%Q, 15)%nat; ((1 # 1)%Q, 16)%nat; ((1 # 1)%Q, 17)%nat; ((1 # 1)%Q, 18)%nat; ((1 # 1)%Q, 19)%nat; ((1 # 1)%Q, 20)%nat; ((1 # 1)%Q, 21)%nat; ((1 # 1)%Q, 22)%nat; ((1 # 1)%Q, 23)%nat; ((1 # 1)%Q, 24)%nat; ((1 # 1)%Q, 25)%nat; ((1 # 1)%Q, 26)%nat; ((1 # 1)%Q, 27)%nat; ((1 # 1)%Q, 28)%nat; ((1 # 1)%Q, 29)%nat; ((4278419646001971 # 1125899906842624)%Q, 30)%nat; ((1 # 1)%Q, 31)%nat; ((1 # 1)%Q, 32)%nat; ((1 # 1)%Q, 33)%nat; ((1 # 1)%Q, 34)%nat; ((1 # 1)%Q, 35)%nat; ((1 # 1)%Q, 36)%nat; ((1 # 1)%Q, 37)%nat; ((1 # 1)%Q, 38)%nat; ((1 # 1)%Q, 39)%nat; ((1 # 1)%Q, 40)%nat; ((1 # 1)%Q, 41)%nat; ((1 # 1)%Q, 42)%nat; ((1 # 1)%Q, 43)%nat; ((1 # 1)%Q, 44)%nat; ((1 # 1)%Q, 45)%nat; ((1 # 1)%Q, 46)%nat; ((1 # 1)%Q, 47)%nat; ((1 # 1)%Q, 48)%nat; ((1 # 1)%Q, 49)%nat; ((1 # 1)%Q, 50)%nat; ((1 # 1)%Q, 51)%nat; ((1 # 1)%Q, 52)%nat] (* mM2 *);
   [((1 # 1)%Q, 0)%nat; ((5 # 2)%Q, 1)%nat; ((1 # 1)%Q, 2)%nat; ((1 # 1)%Q, 3)%nat; ((1 # 1)%Q, 4)%nat; ((1 # 1)%Q, 5)%nat; ((1 # 1)%Q, 6)%nat; ((1 # 1)%Q, 7)%nat; ((12 # 1)%Q, 8)%nat; ((1 # 1)%Q, 9)%nat; ((1 # 1)%Q, 10)%nat; ((1 # 1)%Q, 11)%nat; ((4278419646001971 # 2251799813685248)%Q, 12)%nat; ((1 # 1)%Q, 13)%nat; ((1 # 1)%Q, 14)%nat; ((1 # 1)%Q, 15)%nat; ((1 # 1)%Q, 16)%nat; ((1 # 1)%Q, 17)%nat; ((1 # 1)%Q, 18)%nat; ((1 # 1)%Q, 19)%nat; ((1 # 1)%Q, 20)%nat; ((1 # 1)%Q, 21)%nat; ((1 # 1)%Q, 22)%nat; ((1 # 1)%Q, 23)%nat; ((1 # 1)%Q, 24)%nat; ((1 # 1)%Q, 25)%nat; ((1 # 1)%Q, 26)%nat; ((1 # 1)%Q, 27)%nat; ((1 # 1)%Q, 28)%nat; ((1 # 1)%Q, 29)%nat; ((4278419646001971 # 1125899906842624)%Q, 30)%nat; ((1 # 1)%Q, 31)%nat; ((1 # 1)%Q, 32)%nat; ((1 # 1)%Q, 33)%nat; ((1 # 1)%Q, 34)%nat; ((1 # 1)%Q, 35)%nat; ((1 # 1)%Q, 36)%nat; ((1 # 1)%Q, 37)%nat; ((1 # 1)%Q, 38)%nat; ((1 # 1)%Q, 39)%nat; ((1 # 1)%Q, 40)%nat; ((1 # 1)%Q, 41)%nat; ((1 # 1)%Q, 42)%nat; ((1 # 1)%Q, 43)%nat; ((1 # 1)%Q, 44)%nat; ((1 # 1)%Q, 45)%nat; ((1 # 1)%Q, 46)%nat; ((1 # 1)%Q, 47)%nat; ((1 # 1)%Q, 48)%nat; ((1 # 1)%Q, 49)%nat; ((1 # 1)%Q, 50)%nat; ((1 # 1)%Q, 51)%nat; ((1 # 1)%Q, 52)%nat; ((3 # 4)%Q, 53)%nat; ((3 # 4)%Q, 54)%nat] (* mM3 *);
   [((1 # 1)%Q, 0)%nat; ((5 # 2)%Q, 1)%nat; ((1 # 1)%Q, 2)%nat; ((1 # 1)%Q, 3)%nat; ((1 # 1)%Q, 4)%nat; ((1 # 1)%Q, 5)%nat; ((1 # 1)%Q, 6)%nat; ((1 # 1)%Q, 7)%nat; ((12 # 1)%Q, 8)%nat; ((1 # 1)%Q, 9)%nat; ((1 # 1)%Q, 10)%nat; ((1 # 1)%Q, 11)%nat; ((4278419646001971 # 2251799813685248)%Q, 12)%nat; ((1 # 1)%Q, 13)%nat; ((1 # 1)%Q, 14)%nat; ((1 # 1)%Q, 15)%nat; ((1 # 1)%Q, 16)%nat; ((1 # 1)%Q, 17)%nat; ((1 # 1)%Q, 18)%nat; ((1 # 1)%Q, 19)%nat; ((1 # 1)%Q, 20)%nat; ((1 # 1)%Q, 21)%nat; ((1 # 1)%Q, 22)%nat; ((1 # 1)%Q, 23)%nat; ((1 # 1)%Q, 24)%nat; ((1 # 1)%Q, 25)%nat; ((1 # 1)%Q, 26)%nat; ((1 # 1)%Q, 27)%nat; ((1 # 1)%Q, 28)%nat; ((1 # 1)%Q, 29)%nat; ((4278419646001971 # 1125899906842624)%Q, 30)%nat; ((1 # 1)%Q, 31)%nat; ((1 # 1)%Q, 32)%nat; ((1 # 1)%Q, 33)%nat; ((1 # 1)%Q, 34)%nat; ((1 # 1)%Q, 35)%nat; ((1 # 1)%Q, 36)%nat; ((1 # 1)%Q, 37)%nat; ((1 # 1)%Q, 38)%nat; ((1 # 1)%Q, 39)%nat; ((1 # 1)%Q, 40)%nat; ((1 # 1)%Q, 41)%nat; ((1 # 1)%Q, 42)%nat; ((1 # 1)%Q, 43)%nat; ((1 # 1)%Q, 44)%nat; ((1 # 1)%Q, 45)%nat; ((1 # 1)%Q, 46)%nat; ((1 # 1)%Q, 47)%nat; ((1 # 1)%Q, 48)%nat; ((1 # 1)%Q, 49)%nat; ((1 # 1)%Q, 50)%nat; ((1 # 1)%Q, 51)%nat; ((1 # 1)%Q, 52)%nat; ((3422735716801577 # 9007199254740992)%Q, 53)%nat; ((3422735716801577 # 9007199254740992)%Q, 54)%nat] (* mM4 *);
   [((1 # 1)%Q, 0)%nat; ((2 # 1)%Q, 1)%nat; ((1 # 1)%Q, 2)%nat; ((1 # 1)%Q, 3)%nat; ((1 # 1)%Q, 4)%nat; ((1 # 1)%Q, 5)%nat; ((1 # 1)%Q, 6)%nat; ((1 # 1)%Q, 7)%nat; ((11 # 1)%Q, 8)%nat; ((1 # 1)%Q, 9)%nat; ((1 # 1)%Q, 10)%nat; ((1 # 1)%Q, 11)%nat; ((4278419646001971 # 2251799813685248)%Q, 12)%nat; ((1 # 1)%Q, 13)%nat; ((1 # 1)%Q, 14)%nat; ((1 # 1)%Q, 15)%nat; ((1 # 1)%Q, 16)%nat; ((1 # 1)%Q, 17)%nat; ((1 # 1)%Q, 18)%nat; ((1 # 1)%Q, 19)%nat; ((1 # 1)%Q, 20)%nat; ((3512807709348987 # 4503599627370496)%Q, 21)%nat; ((1 # 1)%Q, 22)%nat; ((1 # 1)%Q, 23)%nat; ((1 # 1)%Q, 24)%nat; ((1 # 1)%Q, 25)%nat; ((1 # 1)%Q, 26)%nat; ((1 # 1)%Q, 27)%nat; ((1 # 1)%Q, 28)%nat; ((1 # 1)%Q, 29)%nat; ((4278419646001971 # 1125899906842624)%Q, 30)%nat; ((1 # 1)%Q, 31)%nat; ((1 # 1)%Q, 32)%nat; ((1 # 1)%Q, 33)%nat; ((1 # 1)%Q, 34)%nat; ((1 # 1)%Q, 35)%nat; ((1 # 1)%Q, 36)%nat; ((1 # 1)%Q, 37)%nat; ((1 # 1)%Q, 38)%nat; ((1 # 1)%Q, 39)%nat; ((1 # 1)%Q, 40)%nat; ((1 # 1)%Q, 41)%nat; ((1 # 1)%Q, 42)%nat; ((1 # 1)%Q, 43)%nat; ((1 # 1)%Q, 44)%nat; ((1 # 1)%Q, 45)%nat; ((1 # 1)%Q, 46)%nat; ((1 # 1)%Q, 47)%nat; ((1 # 1)%Q, 48)%nat; ((1 # 1)%Q, 49)%nat; ((1 # 1)%Q, 50)%nat; ((1 # 1)%Q, 51)%nat; ((1 # 1)%Q, 52)%nat; ((1 # 1)%Q, 53)%nat; ((1 # 1)%Q, 54)%nat] (* mM5 *);
   [((1 # 1)%Q, 0)%nat; ((5 # 2)%Q, 1)%nat; ((1 # 1)%Q, 2)%nat; ((1 # 1)%Q, 3)%nat; ((1 # 1)%Q, 4)%nat; ((1 # 1)%Q, 5)%nat; ((1 # 1)%Q, 6)%nat; ((1 # 1)%Q, 7)%nat; ((12 # 1)%Q, 8)%nat; ((1 # 1)%Q, 9)%nat; ((1 # 1)%Q, 10)%nat; ((1 # 1)%Q, 11)%nat; ((4278419646001971 # 2251799813685248)%Q, 12)%nat; ((1 # 1)%Q, 13)%nat; ((1 # 1)%Q, 14)%nat; ((1 # 1)%Q, 15)%nat; ((1 # 1)%Q, 16)%nat; ((1 # 1)%Q, 17)%nat; ((1 # 1)%Q, 18)%nat; ((1 # 1)%Q, 19)%nat; ((1 # 1)%Q, 20)%nat; ((1 # 1)%Q, 21)%nat; ((1 # 1)%Q, 22)%nat; ((1 # 1)%Q, 23)%nat; ((1 # 1)%Q, 24)%nat; ((1 # 1)%Q, 25)%nat; ((1 # 1)%Q, 26)%nat; ((1 # 1)%Q, 27)%nat; ((1 # 1)%Q, 28)%nat; ((1 # 1)%Q, 29)%nat; ((4278419646001971 # 1125899906842624)%Q, 30)%nat; ((1 # 1)%Q, 31)%nat; ((1 # 1)%Q, 32)%nat; ((1 # 1)%Q, 33)%nat; ((1 # 1)%Q, 34)%nat; ((1 # 1)%Q, 35)%nat; ((1 # 1)%Q, 36)%nat; ((1 # 1)%Q, 37)%nat; ((1 # 1)%Q, 38)%nat; ((1 # 1)%Q, 39)%nat; ((1 # 1)%Q, 40)%nat; ((1 # 1)%Q, 41)%nat; ((1 # 1)%Q, 42)%nat; ((1 # 1)%Q, 43)%nat; ((1 # 1)%Q, 44)%nat; ((1 # 1)%Q, 45)%nat; ((1 # 1)%Q, 46)%nat; ((1 # 1)%Q, 47)%nat; ((1 # 1)%Q, 48)%nat; ((1 # 1)%Q, 49)%nat; ((1 # 1)%Q, 50)%nat; ((1 # 1)%Q, 51)%nat; ((1 # 1)%Q, 52)%nat; ((5764607523034235 # 9007199254740992)%Q, 53)%nat; ((5764607523034235 # 9007199254740992)%Q, 54)%nat] (* mM6 *);
   [((1 # 1)%Q, 0)%nat; ((5 # 2)%Q, 1)%nat; ((1 # 1)%Q, 2)%nat; ((1 # 1)%Q, 3)%nat; ((1 # 1)%Q, 4)%nat; ((1 # 1)%Q, 5)%nat; ((1 # 1)%Q, 6)%nat; ((1 # 1)%Q, 7)%nat; ((12 # 1)%Q, 8)%nat; ((1 # 1)%Q, 9)%nat; ((1 # 1)%Q, 10)%nat; ((1 # 1)%Q, 11)%nat; ((4278419646001971 # 2251799813685248)%Q, 12)%nat; ((1 # 1)%Q, 13)%nat; ((1 # 1)%Q, 14)%nat; ((1 # 1)%Q, 15)%nat; ((1 # 1)%Q, 16)%nat; ((1 # 1)%Q, 17)%nat; ((1 # 1)%Q, 18)%nat; ((1 # 1)%Q, 19)%nat; ((1 # 1)%Q, 20)%nat; ((1 # 1)%Q, 21)%nat; ((1 # 1)%Q, 22)%nat; ((1 # 1)%Q, 23)%nat; ((1 # 1)%Q, 24)%nat; ((1 # 1)%Q, 25)%nat; ((1 # 1)%Q, 26)%nat; ((1 # 1)%Q, 27)%nat; ((1 # 1)%Q, 28)%nat; ((1 # 1)%Q, 29)%nat; ((4278419646001971 # 1125899906842624)%Q, 30)%nat; ((1 # 1)%Q, 31)%nat; ((1 # 1)%Q, 32)%nat; ((1 # 1)%Q, 33)%nat; ((1 # 1)%Q, 34)%nat; ((1 # 1)%Q, 35)%nat; ((1 # 1)%Q, 36)%nat; ((1 # 1)%Q, 37)%nat; ((1 # 1)%Q, 38)%nat; ((1 # 1)%Q, 39)%nat; ((1 # 1)%Q, 40)%nat; ((1 # 1)%Q, 41)%nat; ((1 # 1)%Q, 42)%nat; ((1 # 1)%Q, 43)%nat; ((1 # 1)%Q, 44)%nat; ((1 # 1)%Q, 45)%nat; ((1 # 1)%Q, 46)%nat; ((1 # 1)%Q, 47)%nat; ((1 # 1)%Q, 48)%nat; ((1 # 1)%Q, 49)%nat; ((1 # 1)%Q, 50)%nat; ((1 # 1)%Q, 51)%nat; ((1 # 1)%Q, 52)%nat; ((7836263351624663 # 9007199254740992)%Q, 53)%nat; ((1 # 1)%Q, 54)%nat] (* mM7 *);
   [((1 # 1)%Q, 0)%nat; ((5 # 2)%Q, 1)%nat; ((1 # 1)%Q, 2)%nat; ((1 # 1)%Q, 3)%nat; ((1 # 1)%Q, 4)%nat; ((1 # 1)%Q, 5)%nat; ((1 # 1)%Q, 6)%nat; ((1 # 1)%Q, 7)%nat; ((6 # 1)%Q, 8)%nat; ((1 # 1)%Q, 9)%nat; ((1 # 1)%Q, 10)%nat; ((1 # 1)%Q, 11)%nat; ((4278419646001971 # 2251799813685248)%Q, 12)%nat; ((1 # 1)%Q, 13)%nat; ((1 # 1)%Q, 14)%nat; ((1 # 1)%Q, 15)%nat; ((1 # 1)%Q, 16)%nat; ((1 # 1)%Q, 17)%nat; ((1 # 1)%Q, 18)%nat; ((1 # 1)%Q, 19)%nat; ((1 # 1)%Q, 20)%nat; ((1 # 1)%Q, 21)%nat; ((1 # 1)%Q, 22)%nat; ((1 # 1)%Q, 23)%nat; ((1 # 1)%Q, 24)%nat; ((1 # 1)%Q, 25)%nat; ((1 # 1)%Q, 26)%nat; ((1 # 1)%Q, 27)%nat; ((1 # 1)%Q, 28)%nat; ((1 # 1)%Q, 29)%nat; ((4278419646001971 # 1125899906842624)%Q, 30)%nat; ((1 # 1)%Q, 31)%nat; ((1 # 1)%Q, 32)%nat; ((1 # 1)%Q, 33)%nat; ((1 # 1)%Q, 34)%nat; ((1 # 1)%Q, 35)%nat; ((1 # 1)%Q, 36)%nat; ((1 # 1)%Q, 37)%nat; ((1 # 1)%Q, 38)%nat; ((1 # 1)%Q, 39)%nat; ((1 # 1)%Q, 40)%nat; ((1 # 1)%Q, 41)%nat; ((1 # 1)%Q, 42)%nat; ((1 # 1)%Q, 43)%nat; ((1 # 1)%Q, 44)%nat; ((1 # 1)%Q, 45)%nat; ((1 # 1)%Q, 46)%nat; ((1 # 1)%Q, 47)%nat; ((1 # 1)%Q, 48)%nat; ((1 # 1)%Q, 49)%nat; ((1 # 1)%Q, 50)%nat; ((1 # 1)%Q, 51)%nat; ((1 # 1)%Q, 52)%nat; ((1 # 1)%Q, 53)%nat; ((1 # 1)%Q, 54)%nat] (* mM8 *);
   [((1 # 1)%Q, 0)%nat; ((5 # 2)%Q, 1)%nat; ((1 # 1)%Q, 2)%nat; ((1 # 1)%Q, 3)%nat; ((1 # 1)%Q, 4)%nat; ((1 # 1)%Q, 5)%nat; ((1 # 1)%Q, 6)%nat; ((1 # 1)%Q, 7)%nat; ((12 # 1)%Q, 8)%nat; ((1 # 1)%Q, 9)%nat; ((1 # 1)%Q, 10)%nat; ((1 # 1)%Q, 11)%nat; ((4278419646001971 # 2251799813685248)%Q, 12)%nat; ((1 # 1)%Q, 13)%nat; ((1 # 1)%Q, 14)%nat; ((1 # 1)%Q, 15)%nat; ((1 # 1)%Q, 16)%nat; ((1 # 1)%Q, 17)%nat; ((1 # 1)%Q, 18)%nat; ((1 # 1)%Q, 19)%nat; ((1 # 1)%Q, 20)%nat; ((1 # 1)%Q, 21)%nat; ((1 # 1)%Q, 22)%nat; ((1 # 1)%Q, 23)%nat; ((1 # 1)%Q, 24)%nat; ((1 # 1)%Q, 25)%nat; ((1 # 1)%Q, 26)%nat; ((1 # 1)%Q, 27)%nat; ((1 # 1)%Q, 28)%nat; ((1 # 1)%Q, 29)%nat; ((4278419646001971 # 1125899906842624)%Q, 30)%nat; ((1 # 1)%Q, 31)%nat; ((1 # 1)%Q, 32)%nat; ((1 # 1)%Q, 33)%nat; ((1 # 1)%Q, 34)%nat; ((1 # 1)%Q, 35)%nat; ((1 # 1)%Q, 36)%nat; ((1 # 1)%Q, 37)%nat; ((1 # 1)%Q, 38)%nat; ((1 # 1)%Q, 39)%nat; ((1 # 1)%Q, 40)%nat; ((1 # 1)%Q, 41)%nat; ((1 # 1)%Q, 42)%nat; ((1 # 1)%Q, 43)%nat; ((1 # 1)%Q, 44)%nat; ((1 # 1)%Q, 45)%nat; ((1 # 1)%Q, 46)%nat; ((1 # 1)%Q, 47)%nat; ((1 # 1)%Q, 48)%nat; ((1 # 1)%Q, 49)%nat; ((1 # 1)%Q, 50)%nat; ((1 # 1)%Q, 51)%nat; ((1 # 1)%Q, 52)%nat; ((3152519739159347 # 4503599627370496)%Q, 53)%nat; ((1 # 1)%Q, 54)%nat] (* mM9 *);
   [((1 # 1)%Q, 0)%nat; ((5 # 2)%Q, 1)%nat; ((1 # 1)%Q, 2)%nat; ((1 # 1)%Q, 3)%nat; ((1 # 1)%Q, 4)%nat; ((1 # 1)%Q, 5)%nat; ((1 # 1)%Q, 6)%nat; ((1 # 1)%Q, 7)%nat; ((12 # 1)%Q, 8)%nat; ((1 # 1)%Q, 9)%nat; ((1 # 1)%Q, 10)%nat; ((1 # 1)%Q, 11)%nat; ((4278419646001971 # 2251799813685248)%Q, 12)%nat; ((1 # 1)%Q, 13)%nat; ((1 # 1)%Q, 14)%nat; ((1 # 1)%Q, 15)%nat; ((1 # 1)%Q, 16)%nat; ((1 # 1)%Q, 17)%nat; ((1 # 1)%Q, 18)%nat; ((1 # 1)%Q, 19)%nat; ((1 # 1)%Q, 20)%nat; ((1 # 1)%Q, 21)%nat; ((1 # 1)%Q, 22)%nat; ((1 # 1)%Q, 23)%nat; ((1 # 1)%Q, 24)%nat; ((1 # 1)%Q, 25)%nat; ((1 # 1)%Q, 26)%nat; ((1 # 1)%Q, 27)%nat; ((1 # 1)%Q, 28)%nat; ((1 # 1)%Q, 29)%nat; ((4278419646001971 # 1125899906842624)%Q, 30)%nat; ((1 # 1)%Q, 31)%nat; ((1 # 1)%Q, 32)%nat; ((1 # 1)%Q, 33)%nat; ((1 # 1)%Q, 34)%nat; ((1 # 1)%Q, 35)%nat; ((1 # 1)%Q, 36)%nat; ((1 # 1)%Q, 37)%nat; ((1 # 1)%Q, 38)%nat; ((1 # 1)%Q, 39)%nat; ((1 # 1)%Q, 40)%nat; ((1 # 1)%Q, 41)%nat; ((1 # 1)%Q, 42)%nat; ((1 # 1)%Q, 43)%nat; ((1 # 1)%Q, 44)%nat; ((1 # 1)%Q, 45)%nat; ((1 # 1)%Q, 46)%nat; ((1 # 1)%Q, 47)%nat; ((1 # 1)%Q, 48)%nat; ((1 # 1)%Q, 49)%nat; ((1 # 1)%Q, 50)%nat; ((1 # 1)%Q, 51)%nat; ((1 # 1)%Q, 52)%nat; ((3152519739159347 # 4503599627370496)%Q, 53)%nat; ((1 # 1)%Q, 54)%nat] (* mM10 *);
   [((1 # 1)%Q, 0)%nat; ((1 # 1)%Q, 1)%nat; ((1 # 1)%Q, 2)%nat; ((1 # 1)%Q, 3)%nat; ((1 # 1)%Q, 4)%nat; ((1 # 1)%Q, 5)%nat; ((1 # 1)%Q, 6)%nat; ((1 # 1)%Q, 7)%nat; ((5 # 1)%Q, 8)%nat; ((1 # 1)%Q, 9)%nat; ((1 # 1)%Q, 10)%nat; ((1 # 1)%Q, 11)%nat; ((2 # 1)%Q, 12)%nat; ((1 # 1)%Q, 13)%nat; ((1 # 1)%Q, 14)%nat; ((1 # 1)%Q, 15)%nat; ((1 # 1)%Q, 16)%nat; ((1 # 1)%Q, 17)%nat; ((1 # 1)%Q, 18)%nat; ((1 # 1)%Q, 19)%nat; ((1 # 1)%Q, 20)%nat; ((1 # 1)%Q, 21)%nat; ((1 # 1)%Q, 22)%nat; ((1 # 1)%Q, 23)%nat; ((1 # 1)%Q, 24)%nat; ((1 # 1)%Q, 25)%nat; ((1 # 1)%Q, 26)%nat; ((1 # 1)%Q, 27)%nat; ((1 # 1)%Q, 28)%nat; ((1 # 1)%Q, 29)%nat; ((3 # 1)%Q, 30)%nat; ((1 # 1)%Q, 31)%nat; ((1 # 1)%Q, 32)%nat; ((1 # 1)%Q, 33)%nat; ((1 # 1)%Q, 34)%nat; ((1 # 1)%Q, 35)%nat; ((1 # 1)%Q, 36)%nat; ((1 # 1)%Q, 37)%nat; ((1 # 1)%Q, 38)%nat; ((1 # 1)%Q, 39)%nat; ((1 # 1)%Q, 40)%nat; ((1 # 1)%Q, 41)%nat; ((1 # 1)%Q, 42)%nat; ((1 # 1)%Q, 43)%nat; ((1 # 1)%Q, 44)%nat; ((1 # 1)%Q, 45)%nat; ((1 # 1)%Q, 46)%nat; ((1 # 1)%Q, 47)%nat; ((1 # 1)%Q, 48)%nat; ((1 # 1)%Q, 49)%nat; ((1 # 1)%Q, 50)%nat; ((1 # 1)%Q, 51)%nat; ((1 # 1)%Q, 52)%nat; ((1 # 1)%Q, 53)%nat; ((1 # 1)%Q, 54)%nat] (* mM11 *);
   [((1 # 1)%Q, 0)%nat; ((2 # 1)%Q, 1)%nat; ((1 # 1)%Q, 2)%nat; ((1 # 1)%Q, 3)%nat; ((1 # 1)%Q, 4)%nat; ((1 # 1)%Q, 5)%nat; ((2 # 1)%Q, 6)%nat; ((1 # 1)%Q, 7)%nat; ((6 # 1)%Q, 8)%nat; ((1 # 1)%Q, 9)%nat; ((1 # 1)%Q, 10)%nat; ((1 # 1)%Q, 11)%nat; ((3 # 2)%Q, 12)%nat; ((1 # 1)%Q, 13)%nat; ((1 # 1)%Q, 14)%nat; ((1 # 1)%Q, 15)%nat; ((1 # 1)%Q, 16)%nat; ((1 # 1)%Q, 17)%nat; ((3 # 1)%Q, 18)%nat; ((1 # 1)%Q, 19)%nat; ((1 # 1)%Q, 20)%nat; ((1 # 1)%Q, 21)%nat; ((1 # 1)%Q, 22)%nat; ((1 # 1)%Q, 23)%nat; ((1 # 1)%Q, 24)%nat; ((1 # 1)%Q, 25)%nat; ((1 # 1)%Q, 26)%nat; ((1 # 1)%Q, 27)%nat; ((1 # 1)%Q, 28)%nat; ((1 # 1)%Q, 29)%nat; ((2 # 1)%Q, 30)%nat; ((1 # 1)%Q, 31)%nat; ((1 # 1)%Q, 32)%nat; ((1 # 1)%Q, 33)%nat; ((1 # 1)%Q, 34)%nat; ((1 # 1)%Q, 35)%nat; ((1 # 1)%Q, 36)%nat; ((1 # 1)%Q, 37)%nat; ((1 # 1)%Q, 38)%nat; ((1 # 1)%Q, 39)%nat; ((1 # 1)%Q, 40)%nat; ((1 # 1)%Q, 41)%nat; ((1 # 1)%Q, 42)%nat; ((1 # 1)%Q, 43)%nat; ((1 # 1)%Q, 44)%nat; ((1 # 1)%Q, 45)%nat; ((1 # 1)%Q, 46)%nat; ((1 # 1)%Q, 47)%nat; ((1 # 1)%Q, 48)%nat; ((1 # 1)%Q, 49)%nat; ((1 # 1)%Q, 50)%nat; ((1 # 1)%Q, 51)%nat; ((1 # 1)%Q, 52)%nat; ((3152519739159347 # 4503599627370496)%Q, 53)%nat; ((1 # 1)%Q, 54)%nat] (* mM12 *);
   [((1 # 1)%Q, 0)%nat; ((1 # 1)%Q, 1)%nat; ((1 # 1)%Q, 2)%nat; ((1 # 1)%Q, 3)%nat; ((1 # 1)%Q, 4)%nat; ((1 # 1)%Q, 5)%nat; ((1 # 1)%Q, 6)%nat; ((1 # 1)%Q, 7)%nat; ((1 # 1)%Q, 8)%nat; ((1 # 1)%Q, 9)%nat; ((1 # 1)%Q, 10)%nat; ((1 # 1)%Q, 11)%nat; ((1 # 1)%Q, 12)%nat; ((1 # 1)%Q, 13)%nat; ((1 # 1)%Q, 14)%nat; ((1 # 1)%Q, 15)%nat; ((1 # 1)%Q, 16)%nat; ((1 # 1)%Q, 17)%nat; ((1 # 1)%Q, 18)%nat; ((1 # 1)%Q, 19)%nat; ((1 # 1)%Q, 20)%nat; ((1 # 1)%Q, 21)%nat; ((1 # 1)%Q, 22)%nat; ((1 # 1)%Q, 23)%nat; ((1 # 1)%Q, 24)%nat; ((1 # 1)%Q, 25)%nat; ((1 # 1)%Q, 26)%nat; ((1 # 1)%Q, 27)%nat; ((1 # 1)%Q, 28)%nat; ((1 # 1)%Q, 29)%nat; ((1 # 1)%Q, 30)%nat; ((1 # 1)%Q, 31)%nat; ((1 # 1)%Q, 32)%nat; ((1 # 1)%Q, 33)%nat; ((1 # 1)%Q, 34)%nat; ((1 # 1)%Q, 35)%nat; ((1 # 1)%Q, 36)%nat; ((1 # 1)%Q, 37)%nat; ((1 # 1)%Q, 38)%nat; ((1 # 1)%Q, 39)%nat; ((1 # 1)%Q, 40)%nat; ((1 # 1)%Q, 41)%nat; ((1 # 1)%Q, 42)%nat; ((1 # 1)%Q, 43)%nat; ((1 # 1)%Q, 44)%nat; ((1 # 1)%Q, 45)%nat; ((1 # 1)%Q, 46)%nat; ((1 # 1)%Q, 47)%nat; ((1 # 1)%Q, 48)%nat; ((1 # 1)%Q, 49)%nat; ((1 # 1)%Q, 50)%nat; ((1 # 1)%Q, 51)%nat; ((1 # 1)%Q, 52)%nat; ((1 # 1)%Q, 53)%nat; ((1 # 1)%Q, 54)%nat] (* mM13 *);
   [((1 # 1)%Q, 0)%nat; ((1 # 1)%Q, 1)%nat; ((1 # 1)%Q, 2)%nat; ((1 # 1)%Q, 3)%nat; ((1 # 1)%Q, 4)%nat; ((1 # 1)%Q, 5)%nat; ((1 # 1)%Q, 6)%nat; ((1 # 1)%Q, 7)%nat; ((1 # 1)%Q, 8)%nat; ((1 # 1)%Q, 9)%nat; ((1 # 1)%Q, 10)%nat; ((1 # 1)%Q, 11)%nat; ((1 # 1)%Q, 12)%nat; ((1 # 1)%Q, 13)%nat; ((1 # 1)%Q, 14)%nat; ((1 # 1)%Q, 15)%nat; ((1 # 1)%Q, 16)%nat; ((1 # 1)%Q, 17)%nat; ((1 # 1)%Q, 18)%nat; ((1 # 1)%Q, 19)%nat; ((1 # 1)%Q, 20)%nat; ((1 # 1)%Q, 21)%nat; ((1 # 1)%Q, 22)%nat; ((1 # 1)%Q, 23)%nat; ((1 # 1)%Q, 24)%nat; ((1 # 1)%Q, 25)%nat; ((1 # 1)%Q, 26)%nat; ((1 # 1)%Q, 27)%nat; ((1 # 1)%Q, 28)%nat; ((1 # 1)%Q, 29)%nat; ((1 # 1)%Q, 30)%nat; ((1 # 1)%Q, 31)%nat; ((1 # 1)%Q, 32)%nat; ((1 # 1)%Q, 33)%nat; ((1 # 1)%Q, 34)%nat; ((1 # 1)%Q, 35)%nat; ((1 # 1)%Q, 36)%nat; ((1 # 1)%Q, 37)%nat; ((1 # 1)%Q, 38)%nat; ((1 # 1)%Q, 39)%nat; ((1 # 1)%Q, 40)%nat; ((1 # 1)%Q, 41)%nat; ((1 # 1)%Q, 42)%nat; ((1 # 1)%Q, 43)%nat; ((1 # 1)%Q, 44)%nat; ((1 # 1)%Q, 45)%nat; ((1 # 1)%Q, 46)%nat; ((1 # 1)%Q, 47)%nat; ((1 # 1)%Q, 48)%nat; ((1 # 1)%Q, 49)%nat; ((1 # 1)%Q, 50)%nat; ((1 # 1)%Q, 51)%nat; ((1 # 1)%Q, 52)%nat; ((1 # 1)%Q, 53)%nat; ((1 # 1)%Q, 54)%nat] (* mM14 *);
   [((1 # 1)%Q, 0)%nat; ((2 # 1)%Q, 1)%nat; ((1 # 1)%Q, 2)%nat; ((1 # 1)%Q, 3)%nat; ((1 # 1)%Q, 4)%nat; ((1 # 1)%Q, 5)%nat; ((2 # 1)%Q, 6)%nat; ((1 # 1)%Q, 7)%nat; ((6 # 1)%Q, 8)%nat; ((1 # 1)%Q, 9)%nat; ((1 # 1)%Q, 10)%nat; ((1 # 1)%Q, 11)%nat; ((3 # 2)%Q, 12)%nat; ((1 # 1)%Q, 13)%nat; ((1 # 1)%Q, 14)%nat; ((1 # 1)%Q, 15)%nat; ((1 # 1)%Q, 16)%nat; ((1 # 1)%Q, 17)%nat; ((3 # 1)%Q, 18)%nat; ((1 # 1)%Q, 19)%nat; ((1 # 1)%Q, 20)%nat; ((1 # 1)%Q, 21)%nat; ((1 # 1)%Q, 22)%nat; ((1 # 1)%Q, 23)%nat; ((1 # 1)%Q, 24)%nat; ((1 # 1)%Q, 25)%nat; ((1 # 1)%Q, 26)%nat; ((1 # 1)%Q, 27)%nat; ((1 # 1)%Q, 28)%nat; ((1 # 1)%Q, 29)%nat; ((2 # 1)%Q, 30)%nat; ((1 # 1)%Q, 31)%nat; ((1 # 1)%Q, 32)%nat; ((1 # 1)%Q, 33)%nat; ((1 # 1)%Q, 34)%nat; ((1 # 1)%Q, 35)%nat; ((1 # 1)%Q, 36)%nat; ((1 # 1)%Q, 37)%nat; ((1 # 1)%Q, 38)%nat; ((1 # 1)%Q, 39)%nat; ((1 # 1)%Q, 40)%nat; ((1 # 1)%Q, 41)%nat; ((1 # 1)%Q, 42)%nat; ((1 # 1)%Q, 43)%nat; ((1 # 1)%Q, 44)%nat; ((1 # 1)%Q, 45)%nat; ((1 # 1)%Q, 46)%nat; ((1 # 1)%Q, 47)%nat; ((1 # 1)%Q, 48)%nat; ((1 # 1)%Q, 49)%nat; ((1 # 1)%Q, 50)%nat; ((1 # 1)%Q, 51)%nat; ((1 # 1)%Q, 52)%nat; ((1 # 1)%Q, 53)%nat; ((1 # 1)%Q, 54)%nat] (* mM15 *);
   [((1 # 1)%Q, 0)%nat; ((2 # 1)%Q, 1)%nat; ((1 # 1)%Q, 2)%nat; ((1 # 1)%Q, 3)%nat; ((1 # 1)%Q, 4)%nat; ((1 # 1)%Q, 5)%nat; ((2 # 1)%Q, 6)%nat; ((1 # 1)%Q, 7)%nat; ((6 # 1)%Q, 8)%nat; ((1 # 1)%Q, 9)%nat; ((1 # 1)%Q, 10)%nat; ((1 # 1)%Q, 11)%nat; ((3 # 2)%Q, 12)%nat; ((1 # 1)%Q, 13)%nat; ((1 # 1)%Q, 14)%nat; ((1 # 1)%Q, 15)%nat; ((1 # 1)%Q, 16)%nat; ((1 # 1)%Q, 17)%nat; ((3 # 1)%Q, 18)%nat; ((1 # 1)%Q, 19)%nat; ((1 # 1)%Q, 20)%nat; ((1 # 1)%Q, 21)%nat; ((1 # 1)%Q, 22)%nat; ((1 # 1)%Q, 23)%nat; ((1 # 1)%Q, 24)%nat; ((1 # 1)%Q, 25)%nat; ((1 # 1)%Q, 26)%nat; ((1 # 1)%Q, 27)%nat; ((1 # 1)%Q, 28)%nat; ((1 # 1)%Q, 29)%nat; ((2 # 1)%Q, 30)%nat; ((1 # 1)%Q, 31)%nat; ((1 # 1)%Q, 32)%nat; ((1 # 1)%Q, 33)%nat; ((1 # 1)%Q, 34)%nat; ((1 # 1)%Q, 35)%nat; ((1 # 1)%Q, 36)%nat; ((1 # 1)%Q, 37)%nat; ((1 # 1)%Q, 38)%nat; ((1 # 1)%Q, 39)%nat; ((1 # 1)%Q, 40)%nat; ((1 # 1)%Q, 41)%nat; ((1 # 1)%Q, 42)%nat; ((1 # 1)%Q, 43)%nat; ((1 # 1)%Q, 44)%nat; ((1 # 1)%Q, 45)%nat; ((1 # 1)%Q, 46)%nat; ((1 # 1)%Q, 47)%nat; ((1 # 1)%Q, 48)%nat; ((1 # 1)%Q, 49)%nat; ((1 # 1)%Q, 50)%nat; ((1 # 1)%Q, 51)%nat; ((1 # 1)%Q, 52)%nat; ((1 # 1)%Q, 53)%nat; ((1 # 1)%Q, 54)%nat] (* mM16 *);
   [((1 # 1)%Q, 0)%nat; ((2 # 1)%Q, 1)%nat; ((1 # 1)%Q, 2)%nat; ((1 # 1)%Q, 3)%nat; ((1 # 1)%Q, 4)%nat; ((1 # 1)%Q, 5)%nat; ((2 # 1)%Q, 6)%nat; ((1 # 1)%Q, 7)%nat; ((6 # 1)%Q, 8)%nat; ((1 # 1)%Q, 9)%nat; ((1 # 1)%Q, 10)%nat; ((1 # 1)%Q, 11)%nat; ((3 # 2)%Q, 12)%nat; ((1 # 1)%Q, 13)%nat; ((1 # 1)%Q, 14)%nat; ((1 # 1)%Q, 15)%nat; ((1 # 1)%Q, 16)%nat; ((1 # 1)%Q, 17)%nat; ((3 # 1)%Q, 18)%nat; ((1 # 1)%Q, 19)%nat; ((1 # 1)%Q, 20)%nat; ((1 # 1)%Q, 21)%nat; ((1 # 1)%Q, 22)%nat; ((1 # 1)%Q, 23)%nat; ((1 # 1)%Q, 24)%nat; ((1 # 1)%Q, 25)%nat; ((1 # 1)%Q, 26)%nat; ((1 # 1)%Q, 27)%nat; ((1 # 1)%Q, 28)%nat; ((1 # 1)%Q, 29)%nat; ((2 # 1)%Q, 30)%nat; ((1 # 1)%Q, 31)%nat; ((1 # 1)%Q, 32)%nat; ((1 # 1)%Q, 33)%nat; ((1 # 1)%Q, 34)%nat; ((1 # 1)%Q, 35)%nat; ((1 # 1)%Q, 36)%nat; ((1 # 1)%Q, 37)%nat; ((1 # 1)%Q, 38)%nat; ((1 # 1)%Q, 39)%nat; ((1 # 1)%Q, 40)%nat; ((1 # 1)%Q, 41)%nat; ((1 # 1)%Q, 42)%nat; ((1 # 1)%Q, 43)%nat; ((1 # 1)%Q, 44)%nat; ((1 # 1)%Q, 45)%nat; ((1 # 1)%Q, 46)%nat; ((1 # 1)%Q, 47)%nat; ((1 # 1)%Q, 48)%nat; ((1 # 1)%Q, 49)%nat; ((1 # 1)%Q, 50)%nat; ((1 # 1)%Q, 51)%nat; ((1 # 1)%Q, 52)%nat; ((1 # 1)%Q, 53)%nat; ((1 # 1)%Q, 54)%nat] (* mM17 *);
   [((1 # 1)%Q, 0)%nat; ((2 # 1)%Q, 1)%nat; ((1 # 1)%Q, 2)%nat; ((1 # 1)%Q, 3)%nat; ((1 # 1)%Q, 4)%nat; ((1 # 1)%Q, 5)%nat; ((2 # 1)%Q, 6)%nat; ((1 # 1)%Q, 7)%nat; ((6 # 1)%Q, 8)%nat; ((1 # 1)%Q, 9)%nat; ((1 # 1)%Q, 10)%nat; ((1 # 1)%Q, 11)%nat; ((3 # 2)%Q, 12)%nat; ((1 # 1)%Q, 13)%nat; ((1 # 1)%Q, 14)%nat; ((1 # 1)%Q, 15)%nat; ((1 # 1)%Q, 16)%nat; ((1 # 1)%Q, 17)%nat; ((3 # 1)%Q, 18)%nat; ((1 # 1)%Q, 19)%nat; ((1 # 1)%Q, 20)%nat; ((1 # 1)%Q, 21)%nat; ((1 # 1)%Q, 22)%nat; ((1 # 1)%Q, 23)%nat; ((1 # 1)%Q, 24)%nat; ((1 # 1)%Q, 25)%nat; ((1 # 1)%Q, 26)%nat; ((1 # 1)%Q, 27)%nat; ((1 # 1)%Q, 28)%nat; ((1 # 1)%Q, 29)%nat; ((2 # 1)%Q, 30)%nat; ((1 # 1)%Q, 31)%nat; ((1 # 1)%Q, 32)%nat; ((1 # 1)%Q, 33)%nat; ((1 # 1)%Q, 34)%nat; ((1 # 1)%Q, 35)%nat; ((1 # 1)%Q, 36)%nat; ((1 # 1)%Q, 37)%nat; ((1 # 1)%Q, 38)%nat; ((1 # 1)%Q, 39)%nat; ((1 # 1)%Q, 40)%nat; ((1 # 1)%Q, 41)%nat; ((1 # 1)%Q, 42)%nat; ((1 # 1)%Q, 43)%nat; ((1 # 1)%Q, 44)%nat; ((1 # 1)%Q, 45)%nat; ((1 # 1)%Q, 46)%nat; ((1 # 1)%Q, 47)%nat; ((1 # 1)%Q, 48)%nat; ((1 # 1)%Q, 49)%nat; ((1 # 1)%Q, 50)%nat; ((1 # 1)%Q, 51)%nat; ((1 # 1)%Q, 52)%nat; ((1 # 1)%Q, 53)%nat; ((1 # 1)%Q, 54)%nat] (* mM18 *);
   [((1 # 1)%Q, 0)%nat; ((2 # 1)%Q, 1)%nat; ((1 # 1)%Q, 2)%nat; ((1 # 1)%Q, 3)%nat; ((1 # 1)%Q, 4)%nat; ((1 # 1)%Q, 5)%nat; ((2 # 1)%Q, 6)%nat; ((1 # 1)%Q, 7)%nat; ((6 # 1)%Q, 8)%nat; ((1 # 1)%Q, 9)%nat; ((1 # 1)%Q, 10)%nat; ((1 # 1)%Q, 11)%nat; ((3 # 2)%Q, 12)%nat; ((1 # 1)%Q, 13)%nat; ((1 # 1)%Q, 14)%nat; ((1 # 1)%Q, 15)%nat; ((1 # 1)%Q, 16)%nat; ((1 # 1)%Q, 17)%nat; ((3 # 1)%Q, 18)%nat; ((1 # 1)%Q, 19)%nat; ((1 # 1)%Q, 20)%nat; ((1 # 1)%Q, 21)%nat; ((1 # 1)%Q, 22)%nat; ((1 # 1)%Q, 23)%nat; ((1 # 1)%Q, 24)%nat; ((1 # 1)%Q, 25)%nat; ((1 # 1)%Q, 26)%nat; ((1 # 1)%Q, 27)%nat; ((1 # 1)%Q, 28)%nat; ((1 # 1)%Q, 29)%nat; ((2 # 1)%Q, 30)%nat; ((1 # 1)%Q, 31)%nat; ((1 # 1)%Q, 32)%nat; ((1 # 1)%Q, 33)%nat; ((1 # 1)%Q, 34)%nat; ((1 # 1)%Q, 35)%nat; ((1 # 1)%Q, 36)%nat; ((1 # 1)%Q, 37)%nat; ((1 # 1)%Q, 38)%nat; ((1 # 1)%Q, 39)%nat; ((1 # 1)%Q, 40)%nat; ((1 # 1)%Q, 41)%nat; ((1 # 1)%Q, 42)%nat; ((1 # 1)%Q, 43)%nat; ((1 # 1)%Q, 44)%nat; ((1 # 1)%Q, 45)%nat; ((1 # 1)%Q, 46)%nat; ((1 # 1)%Q, 47)%nat; ((1 # 1)%Q, 48)%nat; ((1 # 1)%Q, 49)%nat; ((1 # 1)%Q, 50)%nat; ((1 # 1)%Q, 51)%nat; ((1 # 1)%Q, 52)%nat; ((3152519739159347 # 4503599627370496)%Q, 53)%nat; ((1 # 1)%Q, 54)%nat] (* mM19 *);
   [((1 # 1)%Q, 0)%nat; ((2 # 1)%Q, 1)%nat; ((1 # 1)%Q, 2)%nat; ((1 # 1)%Q, 3)%nat; ((1 # 1)%Q, 4)%nat; ((1 # 1)%Q, 5)%nat; ((2 # 1)%Q, 6)%nat; ((1 # 1)%Q, 7)%nat; ((6 # 1)%Q, 8)%nat; ((1 # 1)%Q, 9)%nat; ((1 # 1)%Q, 10)%nat; ((1 # 1)%Q, 11)%nat; ((3 # 2)%Q, 12)%nat; ((1 # 1)%Q, 13)%nat; ((1 # 1)%Q, 14)%nat; ((1 # 1)%Q, 15)%nat; ((1 # 1)%Q, 16)%nat; ((1 # 1)%Q, 17)%nat; ((3 # 1)%Q, 18)%nat; ((1 # 1)%Q, 19)%nat; ((1 # 1)%Q, 20)%nat; ((1 # 1)%Q, 21)%nat; ((1 # 1)%Q, 22)%nat; ((1 # 1)%Q, 23)%nat; ((1 # 1)%Q, 24)%nat; ((1 # 1)%Q, 25)%nat; ((1 # 1)%Q, 26)%nat; ((1 # 1)%Q, 27)%nat; ((1 # 1)%Q, 28)%nat; ((1 # 1)%Q, 29)%nat; ((2 # 1)%Q, 30)%nat; ((1 # 1)%Q, 31)%nat; ((1 # 1)%Q, 32)%nat; ((1 # 1)%Q, 33)%nat; ((1 # 1)%Q, 34)%nat; ((1 # 1)%Q, 35)%nat; ((1 # 1)%Q, 36)%nat; ((1 # 1)%Q, 37)%nat; ((1 # 1)%Q, 38)%nat; ((1 # 1)%Q, 39)%nat; ((1 # 1)%Q, 40)%nat; ((1 # 1)%Q, 41)%nat; ((1 # 1)%Q, 42)%nat; ((1 # 1)%Q, 43)%nat; ((1 # 1)%Q, 44)%nat; ((1 # 1)%Q, 45)%nat; ((1 # 1)%Q, 46)%nat; ((1 # 1)%Q, 47)%nat; ((1 # 1)%Q, 48)%nat; ((1 # 1)%Q, 49)%nat; ((1 # 1)%Q, 50)%nat; ((1 # 1)%Q, 51)%nat; ((1 # 1)%Q, 52)%nat; ((3152519739159347 # 4503599627370496)%Q, 53)%nat; ((1 # 1)%Q, 54)%nat] (* mM20 *);
   [((1 # 1)%Q, 0)%nat; ((2 # 1)%Q, 1)%nat; ((1 # 1)%Q, 2)%nat; ((1 # 1)%Q, 3)%nat; ((1 # 1)%Q, 4)%nat; ((1 # 1)%Q, 5)%nat; ((2 # 1)%Q, 6)%nat; ((1 # 1)%Q, 7)%nat; ((6 # 1)%Q, 8)%nat; ((1 # 1)%Q, 9)%nat; ((1 # 1)%Q, 10)%nat; ((1 # 1)%Q, 11)%nat; ((3 # 2)%Q, 12)%nat; ((1 # 1)%Q, 13)%nat; ((1 # 1)%Q, 14)%nat; ((1 # 1)%Q, 15)%nat; ((1 # 1)%Q, 16)%nat; ((1 # 1)%Q, 17)%nat; ((3 # 1)%Q, 18)%nat; ((1 # 1)%Q, 19)%nat; ((1 # 1)%Q, 20)%nat; ((1 # 1)%Q, 21)%nat; ((1 # 1)%Q, 22)%nat; ((1 # 1)%Q, 23)%nat; ((1 # 1)%Q, 24)%nat; ((1 # 1)%Q, 25)%nat; ((1 # 1)%Q, 26)%nat; ((1 # 1)%Q, 27)%nat; ((1 # 1)%Q, 28)%nat; ((1 # 1)%Q, 29)%nat; ((2 # 1)%Q, 30)%nat; ((1 # 1)%Q, 31)%nat; ((1 # 1)%Q, 32)%nat; ((1 # 1)%Q, 33)%nat; ((1 # 1)%Q, 34)%nat; ((1 # 1)%Q, 35)%nat; ((1 # 1)%Q, 36)%nat; ((1 # 1)%Q, 37)%nat; ((1 # 1)%Q, 38)%nat; ((1 # 1)%Q, 39)%nat; ((1 # 1)%Q, 40)%nat; ((1 # 1)%Q, 41)%nat; ((1 # 1)%Q, 42)%nat; ((1 # 1)%Q, 43)%nat; ((1 # 1)%Q, 44)%nat; ((1 # 1)%Q, 45)%nat; ((1 # 1)%Q, 46)%nat; ((1 # 1)%Q, 47)%nat; ((1 # 1)%Q, 48)%nat; ((1 # 1)%Q, 49)%nat; ((1 # 1)%Q, 50)%nat; ((1 # 1)%Q, 51)%nat; ((1 # 1)%Q, 52)%nat; ((3152519739159347 # 4503599627370496)%Q, 53)%nat; ((1 # 1)%Q, 54)%nat] (* mM21 *);
   [((1 # 1)%Q, 0)%nat; ((2 # 1)%Q, 1)%nat; ((1 # 1)%Q, 2)%nat; ((1 # 1)%Q, 3)%nat; ((1 # 1)%Q, 4)%nat; ((1 # 1)%Q, 5)%nat; ((2 # 1)%Q, 6)%nat; ((1 # 1)%Q, 7)%nat; ((6 # 1)%Q, 8)%nat; ((1 # 1)%Q, 9)%nat; ((1 # 1)%Q, 10)%nat; ((1 # 1)%Q, 11)%nat; ((3 # 2)%Q, 12)%nat; ((1 # 1)%Q, 13)%nat; ((1 # 1)%Q, 14)%nat; ((1 # 1)%Q, 15)%nat; ((1 # 1)%Q, 16)%nat; ((1 # 1)%Q, 17)%nat; ((3 # 1)%Q, 18)%nat; ((1 # 1)%Q, 19)%nat; ((1 # 1)%Q, 20)%nat; ((1 # 1)%Q, 21)%nat; ((1 # 1)%Q, 22)%nat; ((1 # 1)%Q, 23)%nat; ((1 # 1)%Q, 24)%nat; ((1 # 1)%Q, 25)%nat; ((1 # 1)%Q, 26)%nat; ((1 # 1)%Q, 27)%nat; ((1 # 1)%Q, 28)%nat; ((1 # 1)%Q, 29)%nat; ((2 # 1)%Q, 30)%nat; ((1 # 1)%Q, 31)%nat; ((1 # 1)%Q, 32)%nat; ((1 # 1)%Q, 33)%nat; ((1 # 1)%Q, 34)%nat; ((1 # 1)%Q, 35)%nat; ((1 # 1)%Q, 36)%nat; ((1 # 1)%Q, 37)%nat; ((1 # 1)%Q, 38)%nat; ((1 # 1)%Q, 39)%nat; ((1 # 1)%Q, 40)%nat; ((1 # 1)%Q, 41)%nat; ((1 # 1)%Q, 42)%nat; ((1 # 1)%Q, 43)%nat; ((1 # 1)%Q, 44)%nat; ((1 # 1)%Q, 45)%nat; ((1 # 1)%Q, 46)%nat; ((1 # 1)%Q, 47)%nat; ((1 # 1)%Q, 48)%nat; ((1 # 1)%Q, 49)%nat; ((1 # 1)%Q, 50)%nat; ((1 # 1)%Q, 51)%nat; ((1 # 1)%Q, 52)%nat; ((3152519739159347 # 4503599627370496)%Q, 53)%nat; ((1 # 1)%Q, 54)%nat] (* mM22 *);
   [((1 # 1)%Q, 0)%nat; ((2 # 1)%Q, 1)%nat; ((1 # 1)%Q, 2)%nat; ((1 # 1)%Q, 3)%nat; ((1 # 1)%Q, 4)%nat; ((1 # 1)%Q, 5)%nat; ((2 # 1)%Q, 6)%nat; ((1 # 1)%Q, 7)%nat; ((6 # 1)%Q, 8)%nat; ((1 # 1)%Q, 9)%nat; ((1 # 1)%Q, 10)%nat; ((1 # 1)%Q, 11)%nat; ((3 # 2)%Q, 12)%nat; ((1 # 1)%Q, 13)%nat; ((1 # 1)%Q, 14)%nat; ((1 # 1)%Q, 15)%nat; ((1 # 1)%Q, 16)%nat; ((1 # 1)%Q, 17)%nat; ((3 # 1)%Q, 18)%nat; ((1 # 1)%Q, 19)%nat; ((1 # 1)%Q, 20)%nat; ((1 # 1)%Q, 21)%nat; ((1 # 1)%Q, 22)%nat; ((1 # 1)%Q, 23)%nat; ((1 # 1)%Q, 24)%nat; ((1 # 1)%Q, 25)%nat; ((1 # 1)%Q, 26)%nat; ((1 # 1)%Q, 27)%nat; ((1 # 1)%Q, 28)%nat; ((1 # 1)%Q, 29)%nat; ((2 # 1)%Q, 30)%nat; ((1 # 1)%Q, 31)%nat; ((1 # 1)%Q, 32)%nat; ((1 # 1)%Q, 33)%nat; ((1 # 1)%Q, 34)%nat; ((1 # 1)%Q, 35)%nat; ((1 # 1)%Q, 36)%nat; ((1 # 1)%Q, 37)%nat; ((1 # 1)%Q, 38)%nat; ((1 # 1)%Q, 39)%nat; ((1 # 1)%Q, 40)%nat; ((1 # 1)%Q, 41)%nat; ((1 # 1)%Q, 42)%nat; ((1 # 1)%Q, 43)%nat; ((1 # 1)%Q, 44)%nat; ((1 # 1)%Q, 45)%nat; ((1 # 1)%Q, 46)%nat; ((1 # 1)%Q, 47)%nat; ((1 # 1)%Q, 48)%nat; ((1 # 1)%Q, 49)%nat; ((1 # 1)%Q, 50)%nat; ((1 # 1)%Q, 51)%nat; ((1 # 1)%Q, 52)%nat; ((3152519739159347 # 4503599627370496)%Q, 53)%nat; ((1 # 1)%Q, 54)%nat] (* mM23 *);
   [((1 # 1)%Q, 0)%nat; ((2 # 1)%Q, 1)%nat; ((1 # 1)%Q, 2)%nat; ((1 # 1)%Q, 3)%nat; ((1 # 1)%Q, 4)%nat; ((1 # 1)%Q, 5)%nat; ((2 # 1)%Q, 6)%nat; ((1 # 1)%Q, 7)%nat; ((6 # 1)%Q, 8)%nat; ((1 # 1)%Q, 9)%nat; ((1 # 1)%Q, 10)%nat; ((1 # 1)%Q, 11)%nat; ((3 # 2)%Q, 12)%nat; ((1 # 1)%Q, 13)%nat; ((1 # 1)%Q, 14)%nat; ((1 # 1)%Q, 15)%nat; ((1 # 1)%Q, 16)%nat; ((1 # 1)%Q, 17)%nat; ((3 # 1)%Q, 18)%nat; ((1 # 1)%Q, 19)%nat; ((1 # 1)%Q, 20)%nat; ((1 # 1)%Q, 21)%nat; ((1 # 1)%Q, 22)%nat; ((1 # 1)%Q, 23)%nat; ((1 # 1)%Q, 24)%nat; ((1 # 1)%Q, 25)%nat; ((1 # 1)%Q, 26)%nat; ((1 # 1)%Q, 27)%nat; ((1 # 1)%Q, 28)%nat; ((1 # 1)%Q, 29)%nat; ((2 # 1)%Q, 30)%nat; ((1 # 1)%Q, 31)%nat; ((1 # 1)%Q, 32)%nat; ((1 # 1)%Q, 33)%nat; ((1 # 1)%Q, 34)%nat; ((1 # 1)%Q, 35)%nat; ((1 # 1)%Q, 36)%nat; ((1 # 1)%Q, 37)%nat; ((1 # 1)%Q, 38)%nat; ((1 # 1)%Q, 39)%nat; ((1 # 1)%Q, 40)%nat; ((1 # 1)%Q, 41)%nat; ((1 # 1)%Q, 42)%nat; ((1 # 1)%Q, 43)%nat; ((1 # 1)%Q, 44)%nat; ((1 # 1)%Q, 45)%nat; ((1 # 1)%Q, 46)%nat; ((1 # 1)%Q, 47)%nat; ((1 # 1)%Q, 48)%nat; ((1 # 1)%Q, 49)%nat; ((1 # 1)%Q, 50)%nat; ((1 # 1)%Q, 51)%nat; ((1 # 1)%Q, 52)%nat; ((3152519739159347 # 4503599627370496)%Q, 53)%nat; ((1 # 1)%Q, 54)%nat] (* mM24 *);
   [((1 # 1)%Q, 0)%nat; ((2 # 1)%Q, 1)%nat; ((1 # 1)%Q, 2)%nat; ((1 # 1)%Q, 3)%nat; ((1 # 1)%Q, 4)%nat; ((1 # 1)%Q, 5)%nat; ((2 # 1)%Q, 6)%nat; ((1 # 1)%Q, 7)%nat; ((6 # 1)%Q, 8)%nat; ((1 # 1)%Q, 9)%nat; ((1 # 1)%Q, 10)%nat; ((1 # 1)%Q, 11)%nat; ((3 # 2)%Q, 12)%nat; ((1 # 1)%Q, 13)%nat; ((1 # 1)%Q, 14)%nat; ((1 # 1)%Q, 15)%nat; ((1 # 1)%Q, 16)%nat; ((1 # 1)%Q, 17)%nat; ((3 # 1)%Q, 18)%nat; ((1 # 1)%Q, 19)%nat; ((1 # 1)%Q, 20)%nat; ((1 # 1)%Q, 21)%nat; ((1 # 1)%Q, 22)%nat; ((1 # 1)%Q, 23)%nat; ((1 # 1)%Q, 24)%nat; ((1 # 1)%Q, 25)%nat; ((1 # 1)%Q, 26)%nat; ((1 # 1)%Q, 27)%nat; ((1 # 1)%Q, 28)%nat; ((1 # 1)%Q, 29)%nat; ((2 # 1)%Q, 30)%nat; ((1 # 1)%Q, 31)%nat; ((1 # 1)%Q, 32)%nat; ((1 # 1)%Q, 33)%nat; ((1 # 1)%Q, 34)%nat; ((1 # 1)%Q, 35)%nat; ((1 # 1)%Q, 36)%nat; ((1 # 1)%Q, 37)%nat; ((1 # 1)%Q, 38)%nat; ((1 # 1)%Q, 39)%nat; ((1 # 1)%Q, 40)%nat; ((1 # 1)%Q, 41)%nat; ((1 # 1)%Q, 42)%nat; ((1 # 1)%Q, 43)%nat; ((1 # 1)%Q, 44)%nat; ((1 # 1)%Q, 45)%nat; ((1 # 1)%Q, 46)%nat; ((1 # 1)%Q, 47)%nat; ((1 # 1)%Q, 48)%nat; ((1 # 1)%Q, 49)%nat; ((1 # 1)%Q, 50)%nat; ((1 # 1)%Q, 51)%nat; ((1 # 1)%Q, 52)%nat; ((3152519739159347 # 4503599627370496)%Q, 53)%nat; ((1 # 1)%Q, 54)%nat] (* mM25 *);
   [((1 # 1)%Q, 0)%nat; ((2 # 1)%Q, 1)%nat; ((1 # 1)%Q, 2)%nat; ((1 # 1)%Q, 3)%nat; ((1 # 1)%Q, 4)%nat; ((1 # 1)%Q, 5)%nat; ((2 # 1)%Q, 6)%nat; ((1 # 1)%Q, 7)%nat; ((6 # 1)%Q, 8)%nat; ((1 # 1)%Q, 9)%nat; ((1 # 1)%Q, 10)%nat; ((1 # 1)%Q, 11)%nat; ((3 # 2)%Q, 12)%nat; ((1 # 1)%Q, 13)%nat; ((1 # 1)%Q, 14)%nat; ((1 # 1)%Q, 15)%nat; ((1 # 1)%Q, 16)%nat; ((1 # 1)%Q, 17)%nat; ((3 # 1)%Q, 18)%nat; ((1 # 1)%Q, 19)%nat; ((1 # 1)%Q, 20)%nat; ((1 # 1)%Q, 21)%nat; ((1 # 1)%Q, 22)%nat; ((1 # 1)%Q, 23)%nat; ((1 # 1)%Q, 24)%nat; ((1 # 1)%Q, 25)%nat; ((1 # 1)%Q, 26)%nat; ((1 # 1)%Q, 27)%nat; ((1 # 1)%Q, 28)%nat; ((1 # 1)%Q, 29)%nat; ((2 # 1)%Q, 30)%nat; ((1 # 1)%Q, 31)%nat; ((1 # 1)%Q, 32)%nat; ((1 # 1)%Q, 33)%nat; ((1 # 1)%Q, 34)%nat; ((1 # 1)%Q, 35)%nat; ((1 # 1)%Q, 36)%nat; ((1 # 1)%Q, 37)%nat; ((1 # 1)%Q, 38)%nat; ((1 # 1)%Q, 39)%nat; ((1 # 1)%Q, 40)%nat; ((1 # 1)%Q, 41)%nat; ((1 # 1)%Q, 42)%nat; ((1 # 1)%Q, 43)%nat; ((1 # 1)%Q, 44)%nat; ((1 # 1)%Q, 45)%nat; ((1 # 1)%Q, 46)%nat; ((1 # 1)%Q, 47)%nat; ((1 # 1)%Q, 48)%nat; ((1 # 1)%Q, 49)%nat; ((1 # 1)%Q, 50)%nat; ((1 # 1)%Q, 51)%nat; ((1 # 1)%Q, 52)%nat; ((3152519739159347 # 4503599627370496)%Q, 53)%nat; ((1 # 1)%Q, 54)%nat] (* mM26 *);
   [((1 # 1)%Q, 0)%nat; ((1 # 1)%Q, 1)%nat; ((1 # 1)%Q, 2)%nat; ((1 # 1)%Q, 3)%nat; ((1 # 1)%Q, 4)%nat; ((1 # 1)%Q, 5)%nat; ((1 # 1)%Q, 6)%nat; ((1 # 1)%Q, 7)%nat; ((1 # 1)%Q, 9)%nat; ((1 # 1)%Q, 10)%nat; ((1 # 1)%Q, 11)%nat; ((1 # 1)%Q, 13)%nat; ((1 # 1)%Q, 14)%nat; ((1 # 1)%Q, 15)%nat; ((1 # 1)%Q, 16)%nat; ((1 # 1)%Q, 17)%nat; ((1 # 1)%Q, 18)%nat; ((1 # 1)%Q, 19)%nat; ((1 # 1)%Q, 20)%nat; ((1 # 1)%Q, 21)%nat; ((1 # 1)%Q, 22)%nat; ((1 # 1)%Q, 23)%nat; ((1 # 1)%Q, 24)%nat; ((1 # 1)%Q, 25)%nat; ((1 # 1)%Q, 26)%nat; ((1 # 1)%Q, 27)%nat; ((1 # 1)%Q, 28)%nat; ((1 # 1)%Q, 29)%nat; ((1 # 1)%Q, 31)%nat; ((1 # 1)%Q, 32)%nat; ((1 # 1)%Q, 33)%nat; ((1 # 1)%Q, 34)%nat; ((1 # 1)%Q, 35)%nat; ((1 # 1)%Q, 36)%nat; ((1 # 1)%Q, 37)%nat; ((1 # 1)%Q, 38)%nat; ((1 # 1)%Q, 39)%nat; ((1 # 1)%Q, 40)%nat; ((1 # 1)%Q, 41)%nat; ((1 # 1)%Q, 42)%nat; ((1 # 1)%Q, 43)%nat; ((1 # 1)%Q, 44)%nat; ((1 # 1)%Q, 45)%nat; ((1 # 1)%Q, 46)%nat; ((1 # 1)%Q, 47)%nat; ((1 # 1)%Q, 48)%nat; ((1 # 1)%Q, 49)%nat; ((1 # 1)%Q, 50)%nat; ((1 # 1)%Q, 51)%nat; ((1 # 1)%Q, 52)%nat; ((1 # 1)%Q, 54)%nat] (* mM27 *);
   [((1 # 1)%Q, 0)%nat; ((1 # 1)%Q, 1)%nat; ((1 # 1)%Q, 2)%nat; ((1 # 1)%Q, 3)%nat; ((1 # 1)%Q, 4)%nat; ((1 # 1)%Q, 5)%nat; ((1 # 1)%Q, 6)%nat; ((1 # 1)%Q, 7)%nat; ((1 # 1)%Q, 8)%nat; ((1 # 1)%Q, 9)%nat; ((1 # 1)%Q, 10)%nat; ((1 # 1)%Q, 11)%nat; ((1 # 1)%Q, 12)%nat; ((1 # 1)%Q, 13)%nat; ((1 # 1)%Q, 14)%nat; ((1 # 1)%Q, 15)%nat; ((1 # 1)%Q, 16)%nat; ((1 # 1)%Q, 17)%nat; ((1 # 1)%Q, 18)%nat; ((1 # 1)%Q, 19)%nat; ((1 # 1)%Q, 20)%nat; ((1 # 1)%Q, 21)%nat; ((1 # 1)%Q, 22)%nat; ((1 # 1)%Q, 23)%nat; ((1 # 1)%Q, 24)%nat; ((1 # 1)%Q, 25)%nat; ((1 # 1)%Q, 26)%nat; ((1 # 1)%Q, 27)%nat; ((1 # 1)%Q, 28)%nat; ((1 # 1)%Q, 29)%nat; ((1 # 1)%Q, 30)%nat; ((1 # 1)%Q, 31)%nat; ((1 # 1)%Q, 32)%nat; ((1 # 1)%Q, 33)%nat; ((1 # 1)%Q, 34)%nat; ((1 # 1)%Q, 35)%nat; ((1 # 1)%Q, 36)%nat; ((1 # 1)%Q, 37)%nat; ((1 # 1)%Q, 38)%nat; ((1 # 1)%Q, 39)%nat; ((1 # 1)%Q, 40)%nat; ((1 # 1)%Q, 41)%nat; ((1 # 1)%Q, 42)%nat; ((1 # 1)%Q, 43)%nat; ((1 # 1)%Q, 44)%nat; ((1 # 1)%Q, 45)%nat; ((1 # 1)%Q, 46)%nat; ((1 # 1)%Q, 47)%nat; ((1 # 1)%Q, 48)%nat; ((1 # 1)%Q, 49)%nat; ((1 # 1)%Q, 50)%nat; ((1 # 1)%Q, 51)%nat; ((1 # 1)%Q, 52)%nat; ((1 # 1)%Q, 53)%nat; ((1 # 1)%Q, 54)%nat] (* mM28 *);
   [((1 # 1)%Q, 0)%nat; ((1 # 1)%Q, 1)%nat; ((1 # 1)%Q, 2)%nat; ((1 # 1)%Q, 3)%nat; ((1 # 1)%Q, 4)%nat; ((1 # 1)%Q, 5)%nat; ((1 # 1)%Q, 6)%nat; ((1 # 1)%Q, 7)%nat; ((1 # 1)%Q, 8)%nat; ((1 # 1)%Q, 9)%nat; ((1 # 1)%Q, 10)%nat; ((1 # 1)%Q, 11)%nat; ((1 # 1)%Q, 12)%nat; ((1 # 1)%Q, 13)%nat; ((1 # 1)%Q, 14)%nat; ((1 # 1)%Q, 15)%nat; ((1 # 1)%Q, 16)%nat; ((1 # 1)%Q, 17)%nat; ((1 # 1)%Q, 18)%nat; ((1 # 1)%Q, 19)%nat; ((1 # 1)%Q, 20)%nat; ((1 # 1)%Q, 21)%nat; ((1 # 1)%Q, 22)%nat; ((1 # 1)%Q, 23)%nat; ((1 # 1)%Q, 24)%nat; ((1 # 1)%Q, 25)%nat; ((1 # 1)%Q, 26)%nat; ((1 # 1)%Q, 27)%nat; ((1 # 1)%Q, 28)%nat; ((1 # 1)%Q, 29)%nat; ((1 # 1)%Q, 30)%nat; ((1 # 1)%Q, 31)%nat; ((1 # 1)%Q, 32)%nat; ((1 # 1)%Q, 33)%nat; ((1 # 1)%Q, 34)%nat; ((1 # 1)%Q, 35)%nat; ((1 # 1)%Q, 36)%nat; ((1 # 1)%Q, 37)%nat; ((1 # 1)%Q, 38)%nat; ((1 # 1)%Q, 39)%nat; ((1 # 1)%Q, 40)%nat; ((1 # 1)%Q, 41)%nat; ((1 # 1)%Q, 42)%nat; ((1 # 1)%Q, 43)%nat; ((1 # 1)%Q, 44)%nat; ((1 # 1)%Q, 45)%nat; ((1 # 1)%Q, 46)%nat; ((1 # 1)%Q, 47)%nat; ((1 # 1)%Q, 48)%nat; ((1 # 1)%Q, 49)%nat; ((1 # 1)%Q, 50)%nat; ((1 # 1)%Q, 51)%nat; ((1 # 1)%Q, 52)%nat; ((1 # 1)%Q, 53)%nat; ((1 # 1)%Q, 54)%nat] (* mM29 *);
   [((1 # 1)%Q, 0)%nat; ((1 # 1)%Q, 1)%nat; ((1 # 1)%Q, 2)%nat; ((1 # 1)%Q, 3)%nat; ((1 # 1)%Q, 4)%nat; ((1 # 1)%Q, 5)%nat; ((1 # 1)%Q, 6)%nat; ((1 # 1)%Q, 7)%nat; ((1 # 1)%Q, 8)%nat; ((1 # 1)%Q, 9)%nat; ((1 # 1)%Q, 10)%nat; ((1 # 1)%Q, 11)%nat; ((1 # 1)%Q, 12)%nat; ((1 # 1)%Q, 13)%nat; ((1 # 1)%Q, 14)%nat; ((1 # 1)%Q, 15)%nat; ((1 # 1)%Q, 16)%nat; ((1 # 1)%Q, 17)%nat; ((1 # 1)%Q, 18)%nat; ((1 # 1)%Q, 19)%nat; ((1 # 1)%Q, 20)%nat; ((1 # 1)%Q, 21)%nat; ((1 # 1)%Q, 22)%nat; ((1 # 1)%Q, 23)%nat; ((1 # 1)%Q, 24)%nat; ((1 # 1)%Q, 25)%nat; ((1 # 1)%Q, 26)%nat; ((1 # 1)%Q, 27)%nat; ((1 # 1)%Q, 28)%nat; ((1 # 1)%Q, 29)%nat; ((1 # 1)%Q, 30)%nat; ((1 # 1)%Q, 31)%nat; ((1 # 1)%Q, 32)%nat; ((1 # 1)%Q, 33)%nat; ((1 # 1)%Q, 34)%nat; ((1 # 1)%Q, 35)%nat; ((1 # 1)%Q, 36)%nat; ((1 # 1)%Q, 37)%nat; ((1 # 1)%Q, 38)%nat; ((1 # 1)%Q, 39)%nat; ((1 # 1)%Q, 40)%nat; ((1 # 1)%Q, 41)%nat; ((1 # 1)%Q, 42)%nat; ((1 # 1)%Q, 43)%nat; ((1 # 1)%Q, 44)%nat; ((1 # 1)%Q, 45)%nat; ((1 # 1)%Q, 46)%nat; ((1 # 1)%Q, 47)%nat; ((1 # 1)%Q, 48)%nat; ((1 # 1)%Q, 49)%nat; ((1 # 1)%Q, 50)%nat; ((1 # 1)%Q, 51)%nat; ((1 # 1)%Q, 52)%nat; ((1 # 1)%Q, 53)%nat; ((1 # 1)%Q, 54)%nat] (* mM30 *);
   [((1 # 1)%Q, 0)%nat; ((1 # 1)%Q, 1)%nat; ((1 # 1)%Q, 2)%nat; ((1 # 1)%Q, 3)%nat; ((1 # 1)%Q, 4)%nat; ((1 # 1)%Q, 5)%nat; ((1 # 1)%Q, 6)%nat; ((1 # 1)%Q, 7)%nat; ((1 # 1)%Q, 8)%nat; ((1 # 1)%Q, 9)%nat; ((1 # 1)%Q, 10)%nat; ((1 # 1)%Q, 11)%nat; ((1 # 1)%Q, 12)%nat; ((1 # 1)%Q, 13)%nat; ((1 # 1)%Q, 14)%nat; ((1 # 1)%Q, 15)%nat; ((1 # 1)%Q, 16)%nat; ((1 # 1)%Q, 17)%nat; ((1 # 1)%Q, 18)%nat; ((1 # 1)%Q, 19)%nat; ((1 # 1)%Q, 20)%nat; ((1 # 1)%Q, 21)%nat; ((1 # 1)%Q, 22)%nat; ((1 # 1)%Q, 23)%nat; ((1 # 1)%Q, 24)%nat; ((1 # 1)%Q, 25)%nat; ((1 # 1)%Q, 26)%nat; ((1 # 1)%Q, 27)%nat; ((1 # 1)%Q, 28)%nat; ((1 # 1)%Q, 29)%nat; ((1 # 1)%Q, 30)%nat; ((1 # 1)%Q, 31)%nat; ((1 # 1)%Q, 32)%nat; ((1 # 1)%Q, 33)%nat; ((1 # 1)%Q, 34)%nat; ((1 # 1)%Q, 35)%nat; ((1 # 1)%Q, 36)%nat; ((1 # 1)%Q, 37)%nat; ((1 # 1)%Q, 38)%nat; ((1 # 1)%Q, 39)%nat; ((1 # 1)%Q, 40)%nat; ((1 # 1)%Q, 41)%nat; ((1 # 1)%Q, 42)%nat; ((1 # 1)%Q, 43)%nat; ((1 # 1)%Q, 44)%nat; ((1 # 1)%Q, 45)%nat; ((1 # 1)%Q, 46)%nat; ((1 # 1)%Q, 47)%nat; ((1 # 1)%Q, 48)%nat; ((1 # 1)%Q, 49)%nat; ((1 # 1)%Q, 50)%nat; ((1 # 1)%Q, 51)%nat; ((1 # 1)%Q, 52)%nat; ((1 # 1)%Q, 53)%nat; ((1 # 1)%Q, 54)%nat] (* mM31 *);
   [((1 # 1)%Q, 0)%nat; ((1 # 1)%Q, 1)%nat; ((1 # 1)%Q, 2)%nat; ((1 # 1)%Q, 3)%nat; ((1 # 1)%Q, 4)%nat; ((1 # 1)%Q, 5)%nat; ((1 # 1)%Q, 6)%nat; ((1 # 1)%Q, 7)%nat; ((1 # 1)%Q, 8)%nat; ((1 # 1)%Q, 9)%nat; ((1 # 1)%Q, 10)%nat; ((1 # 1)%Q, 11)%nat; ((1 # 1)%Q, 12)%nat; ((1 # 1)%Q, 13)%nat; ((1 # 1)%Q, 14)%nat; ((1 # 1)%Q, 15)%nat; ((1 # 1)%Q, 16)%nat; ((1 # 1)%Q, 17)%nat; ((1 # 1)%Q, 18)%nat; ((1 # 1)%Q, 19)%nat; ((1 # 1)%Q, 20)%nat; ((1 # 1)%Q, 21)%nat; ((1 # 1)%Q, 22)%nat; ((1 # 1)%Q, 23)%nat; ((1 # 1)%Q, 24)%nat; ((1 # 1)%Q, 25)%nat; ((1 # 1)%Q, 26)%nat; ((1 # 1)%Q, 27)%nat; ((1 # 1)%Q, 28)%nat; ((1 # 1)%Q, 29)%nat; ((1 # 1)%Q, 30)%nat; ((1 # 1)%Q, 31)%nat; ((1 # 1)%Q, 32)%nat; ((1 # 1)%Q, 33)%nat; ((1 # 1)%Q, 34)%nat; ((1 # 1)%Q, 35)%nat; ((1 # 1)%Q, 36)%nat; ((1 # 1)%Q, 37)%nat; ((1 # 1)%Q, 38)%nat; ((1 # 1)%Q, 39)%nat; ((1 # 1)%Q, 40)%nat; ((1 # 1)%Q, 41)%nat; ((1 # 1)%Q, 42)%nat; ((1 # 1)%Q, 43)%nat; ((1 # 1)%Q, 44)%nat; ((1 # 1)%Q, 45)%nat; ((1 # 1)%Q, 46)%nat; ((1 # 1)%Q, 47)%nat; ((1 # 1)%Q, 48)%nat; ((1 # 1)%Q, 49)%nat; ((1 # 1)%Q, 50)%nat; ((1 # 1)%Q, 51)%nat; ((1 # 1)%Q, 52)%nat; ((1 # 1)%Q, 53)%nat; ((1 # 1)%Q, 54)%nat] (* mM32 *);
   [((1 # 1)%Q, 0)%nat; ((1 # 1)%Q, 1)%nat; ((1 # 1)%Q, 2)%nat; ((1 # 1)%Q, 3)%nat; ((1 # 1)%Q, 4)%nat; ((1 # 1)%Q, 5)%nat; ((1 # 1)%Q, 6)%nat; ((1 # 1)%Q, 7)%nat; ((1 # 1)%Q, 8)%nat; ((1 # 1)%Q, 9)%nat; ((1 # 1)%Q, 10)%nat; ((1 # 1)%Q, 11)%nat; ((1 # 1)%Q, 12)%nat; ((1 # 1)%Q, 13)%nat; ((1 # 1)%Q, 14)%nat; ((1 # 1)%Q, 15)%nat; ((1 # 1)%Q, 16)%nat; ((1 # 1)%Q, 17)%nat; ((1 # 1)%Q, 18)%nat; ((1 # 1)%Q, 19)%nat; ((1 # 1)%Q, 20)%nat; ((1 # 1)%Q, 21)%nat; ((1 # 1)%Q, 22)%nat; ((1 # 1)%Q, 23)%nat; ((1 # 1)%Q, 24)%nat; ((1 # 1)%Q, 25)%nat; ((1 # 1)%Q, 26)%nat; ((1 # 1)%Q, 27)%nat; ((1 # 1)%Q, 28)%nat; ((1 # 1)%Q, 29)%nat; ((1 # 1)%Q, 30)%nat; ((1 # 1)%Q, 31)%nat; ((1 # 1)%Q, 32)%nat; ((1 # 1)%Q, 33)%nat; ((1 # 1)%Q, 34)%nat; ((1 # 1)%Q, 35)%nat; ((1 # 1)%Q, 36)%nat; ((1 # 1)%Q, 37)%nat; ((1 # 1)%Q, 38)%nat; ((1 # 1)%Q, 39)%nat; ((1 # 1)%Q, 40)%nat; ((1 # 1)%Q, 41)%nat; ((1 # 1)%Q, 42)%nat; ((1 # 1)%Q, 43)%nat; ((1 # 1)%Q, 44)%nat; ((1 # 1)%Q, 45)%nat; ((1 # 1)%Q, 46)%nat; ((1 # 1)%Q, 47)%nat; ((1 # 1)%Q, 48)%nat; ((1 # 1)%Q, 49)%nat; ((1 # 1)%Q, 50)%nat; ((1 # 1)%Q, 51)%nat; ((1 # 1)%Q, 52)%nat; ((1 # 1)%Q, 53)%nat; ((1 # 1)%Q, 54)%nat] (* mM33 *);
   [((1 # 1)%Q, 0)%nat; ((1 # 1)%Q, 1)%nat; ((1 # 1)%Q, 2)%nat; ((1 # 1)%Q, 3)%nat; ((1 # 1)%Q, 4)%nat; ((1 # 1)%Q, 5)%nat; ((1 # 1)%Q, 6)%nat; ((1 # 1)%Q, 7)%nat; ((1 # 1)%Q, 8)%nat; ((1 # 1)%Q, 9)%nat; ((1 # 1)%Q, 10)%nat; ((1 # 1)%Q, 11)%nat; ((1 # 1)%Q, 12)%nat; ((1 # 1)%Q, 13)%nat; ((1 # 1)%Q, 14)%nat; ((1 # 1)%Q, 15)%nat; ((1 # 1)%Q, 16)%nat; ((1 # 1)%Q, 17)%nat; ((1 # 1)%Q, 18)%nat; ((1 # 1)%Q, 19)%nat; ((1 # 1)%Q, 20)%nat; ((1 # 1)%Q, 21)%nat; ((1 # 1)%Q, 22)%nat; ((1 # 1)%Q, 23)%nat; ((1 # 1)%Q, 24)%nat; ((1 # 1)%Q, 25)%nat; ((1 # 1)%Q, 26)%nat; ((1 # 1)%Q, 27)%nat; ((1 # 1)%Q, 28)%nat; ((1 # 1)%Q, 29)%nat; ((1 # 1)%Q, 30)%nat; ((1 # 1)%Q, 31)%nat; ((1 # 1)%Q, 32)%nat; ((1 # 1)%Q, 33)%nat; ((1 # 1)%Q, 34)%nat; ((1 # 1)%Q, 35)%nat; ((1 # 1)%Q, 36)%nat; ((1 # 1)%Q, 37)%nat; ((1 # 1)%Q, 38)%nat; ((1 # 1)%Q, 39)%nat; ((1 # 1)%Q, 40)%nat; ((1 # 1)%Q, 41)%nat; ((1 # 1)%Q, 42)%nat; ((1 # 1)%Q, 43)%nat; ((1 # 1)%Q, 44)%nat; ((1 # 1)%Q, 45)%nat; ((1 # 1)%Q, 46)%nat; ((1 # 1)%Q, 47)%nat; ((1 # 1)%Q, 48)%nat; ((1 # 1)%Q, 49)%nat; ((1 # 1)%Q, 50)%nat; ((1 # 1)%Q, 51)%nat; ((1 # 1)%Q, 52)%nat; ((1 # 1)%Q, 53)%nat; ((1 # 1)%Q, 54)%nat] (* mM34 *)].

(** Rate coefficients, src/equations/ideal_gas_mix/mechanism/Zhao2008Dme.cpp:475-1617, and rates, :1619-2198, of the reactions; label, line of the coefficient and of the rate in comments *)
Definition zhao_reactions : list (coefficient * list factor) :=
  [(Simple (Arr (3547000000000 # 1) ((-3656922897424843) # 9007199254740992) (69450216 # 1)), [Conc 0; Conc 21]) (* r1f 475 1619 *);
   (Simple (Arr (7395627764935953 # 1048576) (260827253886557 # 9007199254740992) ((-4775710991032915) # 4294967296)), [Conc 7; Conc 5]) (* r1b 477 1620 *);
   (Simple (Arr (3574732204225331 # 70368744177664) (1503076375634903 # 562949953421312) (26317360 # 1)), [Conc 5; Conc 1]) (* r2f 479 1621 *);
   (Simple (Arr (8386788944343403 # 281474976710656) (46354803419065 # 17592186044416) (5516667181436751 # 268435456)), [Conc 7; Conc 0]) (* r2b 481 1622 *);
   (Simple (Arr (216000 # 1) (6800435437329449 # 4503599627370496) (7704698882621439 # 536870912)), [Conc 1; Conc 7]) (* r3f 483 1623 *);
   (Simple (Arr (2381848171825029 # 1073741824) (797348835817937 # 562949953421312) (1292857767566263 # 16777216)), [Conc 0; Conc 8]) (* r3b 485 1624 *);
   (Simple (Arr (6531099068989439 # 2199023255552) (4548635623644201 # 2251799813685248) (7524997450956801 # 134217728)), [Conc 5; Conc 8]) (* r4f 487 1625 *);
   (Simple (Arr (746015796825317 # 4398046511104) (4680567334138725 # 2251799813685248) ((-6662450577429131) # 536870912)), [Conc 7; Conc 7]) (* r4b 489 1626 *);
   (Simple (Arr (45770000000000000 # 1) ((-3152519739159347) # 2251799813685248) (7327045092638721 # 16777216)), [Conc 1; Third 0]) (* r5f 491 1627 *);
   (Simple (Arr (1569549437904659 # 8) ((-3937947500558151) # 2251799813685248) (7830404819932355 # 2147483648)), [Conc 0; Conc 0; Third 0]) (* r5b 493 1628 *);
   (Simple (Arr (5840000000000000 # 1) ((-2476979795053773) # 2251799813685248) (7327045092638721 # 16777216)), [Conc 1; Conc 53]) (* r6f 495 1629 *);
   (Simple (Arr (6408507733352207 # 256) ((-6524815112904983) # 4503599627370496) (3915202409965817 # 1073741824)), [Conc 53; Conc 0; Conc 0]) (* r6b 497 1630 *);
   (Simple (Arr (5840000000000000 # 1) ((-2476979795053773) # 2251799813685248) (7327045092638721 # 16777216)), [Conc 1; Conc 54]) (* r7f 499 1631 *);
   (Simple (Arr (1602126933338251 # 64) ((-6524815112905049) # 4503599627370496) (3915202409965941 # 1073741824)), [Conc 54; Conc 0; Conc 0]) (* r7b 501 1632 *);
   (Simple (Arr (6165000000 # 1) ((-1) # 2) (0 # 1)), [Conc 5; Conc 5; Third 1]) (* r8f 503 1633 *);
   (Simple (Arr (424235735039262 # 1) ((-43712510879957) # 70368744177664) (8352966116690729 # 16777216)), [Conc 21; Third 1]) (* r8b 504 1634 *);
   (Simple (Arr (18860000 # 1) (0 # 1) ((-7480992) # 1)), [Conc 5; Conc 5; Conc 53]) (* r9f 506 1635 *);
   (Simple (Arr (2657943885142343 # 2048) ((-8528138791143) # 70368744177664) (4113727949006235 # 8388608)), [Conc 53; Conc 21]) (* r9b 507 1636 *);
   (Simple (Arr (18860000 # 1) (0 # 1) ((-7480992) # 1)), [Conc 5; Conc 5; Conc 54]) (* r10f 509 1637 *);
   (Simple (Arr (332242985642755 # 256) ((-4264069395571) # 35184372088832) (4113727949006235 # 8388608)), [Conc 54; Conc 21]) (* r10b 510 1638 *);
   (Simple (Arr (4714000000000 # 1) ((-1) # 1) (0 # 1)), [Conc 5; Conc 0; Third 2]) (* r11f 512 1639 *);
   (Simple (Arr (5160213549387745 # 8) ((-96578919823449) # 140737488355328) (7169129720553307 # 16777216)), [Conc 7; Third 2]) (* r11b 513 1640 *);
   (Simple (Arr (38000000000000000 # 1) ((-2) # 1) (0 # 1)), [Conc 0; Conc 7; Third 3]) (* r12f 515 1641 *);
   (Simple (Arr (91041614278881378304 # 1) ((-1918454219411) # 1099511627776) (8317955982467613 # 16777216)), [Conc 8; Third 3]) (* r12b 516 1642 *);
   (Falloff (Arr (636600000000000 # 1) ((-7746191359077253) # 4503599627370496) (4715365566880153 # 2147483648)) (Arr (1475000000 # 1) (5404319552844595 # 9007199254740992) (0 # 1)) [Decay (900719925474099 # 4503599627370496) (178405961588245 # 178405961588244985132285746181186892047843328); Decay (3602879701896397 # 4503599627370496) (1000000000000000019884624838656 # 1)] 4, [Conc 0; Conc 21]) (* r13f 523 1643 *);
   (Falloff (Arr (902921436905873408 # 1) ((-121942517789915) # 70368744177664) (1735284738936881 # 8388608)) (Arr (8569101717264413 # 4096) (5288059993889981 # 9007199254740992) (3433730684382511 # 16777216)) [Decay (900719925474099 # 4503599627370496) (178405961588245 # 178405961588244985132285746181186892047843328); Decay (3602879701896397 # 4503599627370496) (1000000000000000019884624838656 # 1)] 4, [Conc 23]) (* r13b 528 1644 *);
   (Simple (Arr (16600000000 # 1) (0 # 1) (7394713912999937 # 2147483648)), [Conc 23; Conc 0]) (* r14f 529 1645 *);
   (Simple (Arr (5725989758999915 # 2097152) (50905790696769 # 140737488355328) (3889910573046123 # 16777216)), [Conc 21; Conc 1]) (* r14b 530 1646 *);
   (Simple (Arr (70790000000 # 1) (0 # 1) (1234280 # 1)), [Conc 23; Conc 0]) (* r15f 532 1647 *);
   (Simple (Arr (7290553627707377 # 536870912) (107189970254661 # 140737488355328) (5144540844395739 # 33554432)), [Conc 7; Conc 7]) (* r15b 533 1648 *);
   (Simple (Arr (32500000000 # 1) (0 # 1) (0 # 1)), [Conc 23; Conc 5]) (* r16f 535 1649 *);
   (Simple (Arr (3287668753634081 # 1048576) (91950248281059 # 281474976710656) (7470798072341627 # 33554432)), [Conc 7; Conc 21]) (* r16b 536 1650 *);
   (Simple (Arr (28900000000 # 1) (0 # 1) ((-8931161153732609) # 4294967296)), [Conc 23; Conc 7]) (* r17f 538 1651 *);
   (Simple (Arr (3199269286230507 # 65536) (18864696117353 # 70368744177664) (4849337949828343 # 16777216)), [Conc 21; Conc 8]) (* r17b 539 1652 *);
   (Simple (Arr (420000000000 # 1) (0 # 1) (50132688 # 1)), [Conc 23; Conc 23]) (* r18f 541 1653 *);
   (Simple (Arr (4068775447021487 # 64) ((-109570517473419) # 281474976710656) (3560304674699049 # 16777216)), [Conc 21; Conc 24]) (* r18b 542 1654 *);
   (Simple (Arr (130000000 # 1) (0 # 1) ((-7319688565279949) # 1073741824)), [Conc 23; Conc 23]) (* r19f 544 1655 *);
   (Simple (Arr (5158432261938579 # 262144) ((-109570517473597) # 281474976710656) (5209695211259801 # 33554432)), [Conc 21; Conc 24]) (* r19b 545 1656 *);
   (Falloff (Arr (120200000000000 # 1) (0 # 1) (190372000 # 1)) (Arr (295100000000000 # 1) (0 # 1) (202631120 # 1)) [Decay (1 # 2) (178405961588245 # 178405961588244985132285746181186892047843328); Decay (1 # 2) (1000000000000000019884624838656 # 1)] 5, [Conc 24]) (* r20f 551 1657 *);
   (Falloff (Arr (7380490854421053 # 68719476736) (655167138401585 # 562949953421312) ((-6519577911350027) # 268435456)) (Arr (4529914415847863 # 17179869184) (655167138401585 # 562949953421312) ((-1614397721995655) # 134217728)) [Decay (1 # 2) (178405961588245 # 178405961588244985132285746181186892047843328); Decay (1 # 2) (1000000000000000019884624838656 # 1)] 5, [Conc 7; Conc 7]) (* r20b 556 1658 *);
   (Simple (Arr (24100000000 # 1) (0 # 1) (4458841773178881 # 268435456)), [Conc 24; Conc 0]) (* r21f 557 1659 *);
   (Simple (Arr (7090619326200131 # 137438953472) (199704621226161 # 140737488355328) (4995247809479809 # 16777216)), [Conc 7; Conc 8]) (* r21b 558 1660 *);
   (Simple (Arr (48200000000 # 1) (0 # 1) (8928914885836799 # 268435456)), [Conc 24; Conc 0]) (* r22f 560 1661 *);
   (Simple (Arr (3514835772014801 # 67108864) (211382098867209 # 281474976710656) (835489405751613 # 8388608)), [Conc 1; Conc 23]) (* r22b 561 1662 *);
   (Simple (Arr (5250168022630399 # 549755813888) (2 # 1) (4458841773178881 # 268435456)), [Conc 24; Conc 5]) (* r23f 563 1663 *);
   (Simple (Arr (3426442760603681 # 562949953421312) (1528941438351963 # 562949953421312) (323714726883027 # 4194304)), [Conc 23; Conc 7]) (* r23b 565 1664 *);
   (Simple (Arr (1000000000 # 1) (0 # 1) (0 # 1)), [Conc 24; Conc 7]) (* r24f 567 1665 *);
   (Simple (Arr (5991125813528641 # 536870912) (185029301942957 # 281474976710656) (8660030234490907 # 67108864)), [Conc 8; Conc 23]) (* r24b 568 1666 *);
   (Simple (Arr (580000000000 # 1) (0 # 1) (5366895570059265 # 134217728)), [Conc 24; Conc 7]) (* r25f 570 1667 *);
   (Simple (Arr (3393411105335473 # 524288) (185029301943089 # 281474976710656) (5671739009760319 # 33554432)), [Conc 8; Conc 23]) (* r25b 571 1668 *);
   (Falloff (Arr (1550000000000000000 # 1) ((-3141260740090921) # 1125899906842624) (4707054375665665 # 268435456)) (Arr (18000000 # 1) (0 # 1) (9974656 # 1)) [Grow (1 # 1) (0 # 1)] 6, [Conc 12; Conc 5]) (* r26f 577 1669 *);
   (Falloff (Arr (1185795155741161173345632256 # 1) ((-264264990129401) # 70368744177664) (1158298736803439 # 2097152)) (Arr (13770524389252194 # 1) ((-1086979101979495) # 1125899906842624) (4569772977093051 # 8388608)) [Grow (1 # 1) (0 # 1)] 6, [Conc 30]) (* r26b 582 1670 *);
   (Simple (Arr (2530000000 # 1) (0 # 1) (6696686164377601 # 33554432)), [Conc 12; Conc 21]) (* r27f 583 1671 *);
   (Simple (Arr (3600263581357675 # 128) ((-237632220329763) # 281474976710656) (61993374397603 # 262144)), [Conc 5; Conc 30]) (* r27b 584 1672 *);
   (Simple (Arr (30100000000 # 1) (0 # 1) (96232000 # 1)), [Conc 12; Conc 23]) (* r28f 586 1673 *);
   (Simple (Arr (8264470756386327 # 256) ((-72840986024511) # 140737488355328) (2984568482770263 # 8388608)), [Conc 7; Conc 30]) (* r28b 587 1674 *);
   (Simple (Arr (1960649134650163 # 8796093022208) (8511803295730237 # 4503599627370496) ((-1301375305436365) # 268435456)), [Conc 12; Conc 7]) (* r29f 589 1675 *);
   (Simple (Arr (2613544153295923 # 2097152) (343851586848931 # 562949953421312) (3443466637610613 # 33554432)), [Conc 0; Conc 30]) (* r29b 591 1676 *);
   (Simple (Arr (474850000 # 1) (2967872154437157 # 4503599627370496) (8352747170562049 # 134217728)), [Conc 15; Third 7]) (* r30f 593 1677 *);
   (Simple (Arr (3271727825030325 # 34359738368) (8029573615706925 # 9007199254740992) ((-8442488082618657) # 4294967296)), [Conc 12; Conc 0; Third 7]) (* r30b 595 1678 *);
   (Simple (Arr (7580000000 # 1) (0 # 1) (1715440 # 1)), [Conc 15; Conc 21]) (* r31f 597 1679 *);
   (Simple (Arr (565149482567937 # 262144) (61799054621015 # 281474976710656) (1192719563202255 # 8388608)), [Conc 23; Conc 12]) (* r31b 598 1680 *);
   (Simple (Arr (72300000000 # 1) (0 # 1) (0 # 1)), [Conc 15; Conc 0]) (* r32f 600 1681 *);
   (Simple (Arr (7093082038580049 # 2097152) (81805318007281 # 140737488355328) (3094399094795133 # 8388608)), [Conc 1; Conc 12]) (* r32b 601 1682 *);
   (Simple (Arr (30200000000 # 1) (0 # 1) (0 # 1)), [Conc 15; Conc 5]) (* r33f 603 1683 *);
   (Simple (Arr (6951136706769529 # 8388608) (76874651451041 # 140737488355328) (6092057855160273 # 16777216)), [Conc 7; Conc 12]) (* r33b 604 1684 *);
   (Simple (Arr (30200000000 # 1) (0 # 1) (0 # 1)), [Conc 15; Conc 7]) (* r34f 606 1685 *);
   (Simple (Arr (7606836656071525 # 524288) (34314459772597 # 70368744177664) (7240884117074591 # 16777216)), [Conc 8; Conc 12]) (* r34b 607 1686 *);
   (Simple (Arr (30000000000 # 1) (0 # 1) (0 # 1)), [Conc 15; Conc 5]) (* r35f 609 1687 *);
   (Simple (Arr (4602248929039707 # 1) ((-103156304828275) # 140737488355328) (1973781782638837 # 4194304)), [Conc 0; Conc 30]) (* r35b 610 1688 *);
   (Simple (Arr (30000000000 # 1) (0 # 1) (0 # 1)), [Conc 15; Conc 23]) (* r36f 612 1689 *);
   (Simple (Arr (6765511417965437 # 1048576) ((-80249806211007) # 281474976710656) (819390012508859 # 4194304)), [Conc 0; Conc 7; Conc 30]) (* r36b 613 1690 *);
   (Simple (Arr (3000000000 # 1) (0 # 1) (0 # 1)), [Conc 15; Conc 15]) (* r37f 615 1691 *);
   (Simple (Arr (7735684408808723 # 274877906944) (114521400926457 # 140737488355328) (638965790524653 # 2097152)), [Conc 12; Conc 12; Conc 1]) (* r37b 616 1692 *);
   (Simple (Arr (26500000000 # 1) (0 # 1) (0 # 1)), [Conc 15; Conc 4]) (* r38f 618 1693 *);
   (Simple (Arr (431611187396281 # 1024) (5120780726889 # 17592186044416) (6321963862357315 # 16777216)), [Conc 6; Conc 12]) (* r38b 619 1694 *);
   (Simple (Arr (30000000000 # 1) (0 # 1) (0 # 1)), [Conc 15; Conc 15]) (* r39f 621 1695 *);
   (Simple (Arr (7484395936687777 # 8192) (17111731110331 # 140737488355328) (659191817936877 # 2097152)), [Conc 12; Conc 17]) (* r39b 622 1696 *);
   (Simple (Arr (3300000000000000449893403772579741696 # 1) ((-7093169413108531) # 1125899906842624) (7012567587225601 # 16777216)), [Conc 17; Third 8]) (* r40f 624 1697 *);
   (Simple (Arr (21728976033456961991427804364800 # 1) ((-3484167299316289) # 562949953421312) (1323922356675675 # 33554432)), [Conc 0; Conc 15; Third 8]) (* r40b 626 1698 *);
   (Simple (Arr (3099999999999999535649940150412458021879808 # 1) ((-8) # 1) (407981840 # 1)), [Conc 17; Third 9]) (* r41f 628 1699 *);
   (Simple (Arr (954890981275994893133987273810903040 # 1) ((-1028490237025879) # 140737488355328) (6682991234459945 # 16777216)), [Conc 1; Conc 12; Third 9]) (* r41b 630 1700 *);
   (Simple (Arr (57400 # 1) (4278419646001971 # 2251799813685248) (1543522984604467 # 134217728)), [Conc 17; Conc 0]) (* r42f 632 1701 *);
   (Simple (Arr (775573437675457 # 8796093022208) (664189629544157 # 281474976710656) (8865632153366635 # 134217728)), [Conc 1; Conc 15]) (* r42b 634 1702 *);
   (Simple (Arr (18100000000 # 1) (0 # 1) (6918505119088641 # 536870912)), [Conc 17; Conc 5]) (* r43f 636 1703 *);
   (Simple (Arr (8755115498410981 # 536870912) (239051681362851 # 562949953421312) (2069453193273611 # 33554432)), [Conc 7; Conc 15]) (* r43b 637 1704 *);
   (Simple (Arr (3430000 # 1) (5314247560297185 # 4503599627370496) ((-1870248) # 1)), [Conc 17; Conc 7]) (* r44f 639 1705 *);
   (Simple (Arr (7436791980024345 # 137438953472) (217587424694149 # 140737488355328) (3871944037820031 # 33554432)), [Conc 8; Conc 15]) (* r44b 641 1706 *);
   (Simple (Arr (1230 # 1) (3 # 1) (217568000 # 1)), [Conc 17; Conc 21]) (* r45f 643 1707 *);
   (Simple (Arr (808339055854465 # 70368744177664) (3488002090131933 # 1125899906842624) (5866476849460883 # 134217728)), [Conc 23; Conc 15]) (* r45b 644 1708 *);
   (Simple (Arr (1446077692850995 # 35184372088832) (5 # 2) (42718640 # 1)), [Conc 17; Conc 23]) (* r46f 646 1709 *);
   (Simple (Arr (4088506861055751 # 70368744177664) (155423129175883 # 70368744177664) (4152334923705079 # 134217728)), [Conc 24; Conc 15]) (* r46b 648 1710 *);
   (Simple (Arr (8791308560237583 # 2417851639229258349412352) (3051188747543511 # 562949953421312) (8967101440065537 # 2147483648)), [Conc 17; Conc 4]) (* r47f 650 1711 *);
   (Simple (Arr (286968909404565 # 151115727451828646838272) (3146606806362615 # 562949953421312) (559242399431411 # 8388608)), [Conc 6; Conc 15]) (* r47b 652 1712 *);
   (Simple (Arr (84300000000 # 1) (0 # 1) (0 # 1)), [Conc 4; Conc 5]) (* r48f 654 1713 *);
   (Simple (Arr (3212764657069393 # 256) ((-41460829482423) # 140737488355328) (4968723163494289 # 16777216)), [Conc 0; Conc 17]) (* r48b 655 1714 *);
   (Simple (Arr (1990000000000000 # 1) ((-7070651414971679) # 4503599627370496) (122298320 # 1)), [Conc 4; Conc 21]) (* r49f 657 1715 *);
   (Simple (Arr (353895599853508928 # 1) ((-4625291604605873) # 2251799813685248) (3984993035551327 # 536870912)), [Conc 5; Conc 20]) (* r49b 659 1716 *);
   (Simple (Arr (374000000 # 1) (0 # 1) (61253760 # 1)), [Conc 4; Conc 21]) (* r50f 661 1717 *);
   (Simple (Arr (7429794564329823 # 67108864) (2469252078977 # 17592186044416) (150392322802783 # 524288)), [Conc 7; Conc 17]) (* r50b 662 1718 *);
   (Simple (Arr (24100000 # 1) (3422735716801577 # 4503599627370496) ((-5222572857753601) # 536870912)), [Conc 4; Conc 23]) (* r51f 664 1719 *);
   (Simple (Arr (433554623681409 # 1048576) (169625493440727 # 281474976710656) (1644899335649785 # 16777216)), [Conc 7; Conc 20]) (* r51b 666 1720 *);
   (Falloff (Arr (80540000000000000377487360 # 1) ((-15) # 4) (8819746266100533 # 2147483648)) (Arr (2277000000000 # 1) ((-1553741871442821) # 2251799813685248) (6284518468175791 # 8589934592)) [Decay (1 # 1) (570 # 1); Grow (1 # 1) (1000000000000000019884624838656 # 1)] 10, [Conc 4; Conc 4]) (* r52f 674 1721 *);
   (Falloff (Arr (12502832934926212906017780092702294016 # 1) ((-718786450814109) # 140737488355328) (1628823635172057 # 4194304)) (Arr (353475919950670311981056 # 1) ((-4610075783148885) # 2251799813685248) (6458664723117473 # 16777216)) [Decay (1 # 1) (570 # 1); Grow (1 # 1) (1000000000000000019884624838656 # 1)] 10, [Conc 18]) (* r52b 679 1722 *);
   (Falloff (Arr (2476999999999999730272698368 # 1) ((-2679641778285445) # 562949953421312) (5480893665771521 # 536870912)) (Arr (12700000000000 # 1) ((-5674535530486825) # 9007199254740992) (6882564832755713 # 4294967296)) [Decay (1954562238278795 # 9007199254740992) (74 # 1); Decay (7052637016462197 # 9007199254740992) (2941 # 1); Grow (1 # 1) (6964 # 1)] 11, [Conc 4; Conc 0]) (* r53f 687 1723 *);
   (Falloff (Arr (196472599894023409446259099959296 # 1) ((-82707535209425) # 17592186044416) (1892578413701427 # 4194304)) (Arr (1007348412859950592 # 1) ((-5146525105145305) # 9007199254740992) (1856480186657075 # 4194304)) [Decay (1954562238278795 # 9007199254740992) (74 # 1); Decay (7052637016462197 # 9007199254740992) (2941 # 1); Grow (1 # 1) (6964 # 1)] 11, [Conc 6]) (* r53b 692 1724 *);
   (Simple (Arr (7517910754918399 # 137438953472) (8872091265919877 # 4503599627370496) (6295165778001921 # 134217728)), [Conc 6; Conc 0]) (* r54f 693 1725 *);
   (Simple (Arr (5660529334507475 # 35184372088832) (2544735394017847 # 1125899906842624) (2614920197932945 # 67108864)), [Conc 1; Conc 4]) (* r54b 695 1726 *);
   (Simple (Arr (3150000000 # 1) (1 # 2) (5778524161966081 # 134217728)), [Conc 6; Conc 5]) (* r55f 697 1727 *);
   (Simple (Arr (5834753964173685 # 1073741824) (425108599254587 # 562949953421312) (3939276104390127 # 134217728)), [Conc 7; Conc 4]) (* r55b 698 1728 *);
   (Simple (Arr (5720 # 1) (2206763817411543 # 1125899906842624) (11041576 # 1)), [Conc 6; Conc 7]) (* r56f 700 1729 *);
   (Simple (Arr (6078916825198497 # 35184372088832) (1214032603626183 # 562949953421312) (8833337281997689 # 134217728)), [Conc 8; Conc 4]) (* r56b 702 1730 *);
   (Simple (Arr (3160000000 # 1) (0 # 1) (0 # 1)), [Conc 4; Conc 23]) (* r57f 704 1731 *);
   (Simple (Arr (5790681432308073 # 32768) (10066718504605 # 140737488355328) (7930610086735691 # 33554432)), [Conc 21; Conc 6]) (* r57b 705 1732 *);
   (Simple (Arr (181000000 # 1) (0 # 1) (77738720 # 1)), [Conc 6; Conc 23]) (* r58f 707 1733 *);
   (Simple (Arr (8219402964985319 # 16777216) ((-8301053086882925) # 18014398509481984) (1860863779140357 # 536870912)), [Conc 24; Conc 4]) (* r58b 708 1734 *);
   (Simple (Arr (100000000000 # 1) (0 # 1) (105018400 # 1)), [Conc 19; Third 12]) (* r59f 710 1735 *);
   (Simple (Arr (7869359626618117 # 536870912) (747604979443961 # 2251799813685248) ((-1784739876205371) # 134217728)), [Conc 0; Conc 17; Third 12]) (* r59b 711 1736 *);
   (Simple (Arr (6000000000 # 1) (0 # 1) (0 # 1)), [Conc 19; Conc 0]) (* r60f 713 1737 *);
   (Simple (Arr (6884407360999721 # 33554432) (47907273151597 # 70368744177664) (5280861189683161 # 16777216)), [Conc 1; Conc 17]) (* r60b 714 1738 *);
   (Simple (Arr (96350000000 # 1) (0 # 1) (0 # 1)), [Conc 19; Conc 0]) (* r61f 716 1739 *);
   (Simple (Arr (6968958010104089 # 536870912) (4235030695339687 # 4503599627370496) (3446363068142207 # 268435456)), [Conc 7; Conc 4]) (* r61b 717 1740 *);
   (Simple (Arr (42000000000 # 1) (0 # 1) (0 # 1)), [Conc 19; Conc 5]) (* r62f 719 1741 *);
   (Simple (Arr (7066377243689543 # 8388608) (90883879746955 # 140737488355328) (2592060427626583 # 8388608)), [Conc 7; Conc 17]) (* r62b 720 1742 *);
   (Simple (Arr (24000000000 # 1) (0 # 1) (0 # 1)), [Conc 19; Conc 7]) (* r63f 722 1743 *);
   (Simple (Arr (8837654651390037 # 1048576) (20659536960279 # 35184372088832) (791618389645935 # 2097152)), [Conc 8; Conc 17]) (* r63b 723 1744 *);
   (Simple (Arr (241000000000 # 1) (0 # 1) (20991128 # 1)), [Conc 19; Conc 21]) (* r64f 725 1745 *);
   (Simple (Arr (1641798391641447 # 32768) (179635022425803 # 562949953421312) (3601789015244047 # 33554432)), [Conc 23; Conc 17]) (* r64b 726 1746 *);
   (Simple (Arr (1510000000000 # 1) ((-1) # 1) (0 # 1)), [Conc 19; Conc 21]) (* r65f 728 1747 *);
   (Simple (Arr (5143393301600633 # 16384) ((-383314930995627) # 562949953421312) (5794887276329429 # 67108864)), [Conc 23; Conc 17]) (* r65b 729 1748 *);
   (Simple (Arr (12000000000 # 1) (0 # 1) (0 # 1)), [Conc 19; Conc 23]) (* r66f 731 1749 *);
   (Simple (Arr (3093559658790885 # 8192) ((-9876503130363) # 140737488355328) (8335879117089515 # 33554432)), [Conc 24; Conc 17]) (* r66b 732 1750 *);
   (Simple (Arr (10000000000 # 1) (0 # 1) (0 # 1)), [Conc 19; Conc 15]) (* r67f 734 1751 *);
   (Simple (Arr (8717305100513251 # 131072) (51504164034237 # 140737488355328) (1419763463372051 # 4194304)), [Conc 12; Conc 22]) (* r67b 735 1752 *);
   (Simple (Arr (15000000000 # 1) (0 # 1) (0 # 1)), [Conc 19; Conc 15]) (* r68f 737 1753 *);
   (Simple (Arr (5470857413399453 # 16384) (31120959406247 # 140737488355328) (4365597543587905 # 16777216)), [Conc 17; Conc 17]) (* r68b 738 1754 *);
   (Simple (Arr (3000000000 # 1) (0 # 1) (0 # 1)), [Conc 19; Conc 19]) (* r69f 740 1755 *);
   (Simple (Arr (1911622539912143 # 131072) (65513392330157 # 140737488355328) (4771116853581089 # 16777216)), [Conc 17; Conc 22]) (* r69b 741 1756 *);
   (Simple (Arr (24000000000 # 1) (0 # 1) (0 # 1)), [Conc 19; Conc 20]) (* r70f 743 1757 *);
   (Simple (Arr (5076889633969645 # 524288) (62506397785119 # 140737488355328) (5299177064400999 # 16777216)), [Conc 17; Conc 22]) (* r70b 744 1758 *);
   (Simple (Arr (830000000000000 # 1) ((-5404319552844595) # 4503599627370496) (8704288096256001 # 134217728)), [Conc 20; Third 13]) (* r71f 746 1759 *);
   (Simple (Arr (5293746372100623 # 524288) ((-2002666709700059) # 2251799813685248) ((-2951301139585421) # 134217728)), [Conc 0; Conc 17; Third 13]) (* r71b 748 1760 *);
   (Simple (Arr (32000000000 # 1) (0 # 1) (0 # 1)), [Conc 20; Conc 0]) (* r72f 750 1761 *);
   (Simple (Arr (6146978397832469 # 17179869184) (517350858737281 # 562949953421312) (2973831610315221 # 67108864)), [Conc 7; Conc 4]) (* r72b 751 1762 *);
   (Simple (Arr (6000000000 # 1) (0 # 1) (0 # 1)), [Conc 20; Conc 5]) (* r73f 753 1763 *);
   (Simple (Arr (5361969684940239 # 536870912) (85817270705 # 137438953472) (714022633259135 # 2097152)), [Conc 7; Conc 17]) (* r73b 754 1764 *);
   (Simple (Arr (18000000000 # 1) (0 # 1) (0 # 1)), [Conc 20; Conc 7]) (* r74f 756 1765 *);
   (Simple (Arr (8801645529800863 # 16777216) (39815576648043 # 70368744177664) (107203239499803 # 262144)), [Conc 8; Conc 17]) (* r74b 757 1766 *);
   (Simple (Arr (90330000000 # 1) (0 # 1) (6727572347944961 # 134217728)), [Conc 20; Conc 21]) (* r75f 759 1767 *);
   (Simple (Arr (6537178815432221 # 4194304) (10475440265365 # 35184372088832) (5635457146790855 # 33554432)), [Conc 23; Conc 17]) (* r75b 760 1768 *);
   (Simple (Arr (22000000 # 1) (0 # 1) (7852952563744769 # 1073741824)), [Conc 20; Conc 21]) (* r76f 762 1769 *);
   (Simple (Arr (6521402163324631 # 17179869184) (83803522122781 # 281474976710656) (8397937654843165 # 67108864)), [Conc 23; Conc 17]) (* r76b 763 1770 *);
   (Simple (Arr (300000000 # 1) (0 # 1) (0 # 1)), [Conc 20; Conc 23]) (* r77f 765 1771 *);
   (Simple (Arr (51349248595993 # 65536) ((-3220874418851) # 35184372088832) (4695999769364673 # 16777216)), [Conc 24; Conc 17]) (* r77b 766 1772 *);
   (Simple (Arr (16000000000 # 1) (0 # 1) (6626490292633601 # 134217728)), [Conc 20; Conc 12]) (* r78f 768 1773 *);
   (Simple (Arr (8193918620254277 # 8192) ((-25346620797463) # 70368744177664) (843709616138279 # 4194304)), [Conc 30; Conc 4]) (* r78b 769 1774 *);
   (Simple (Arr (90000000000 # 1) (0 # 1) (0 # 1)), [Conc 20; Conc 15]) (* r79f 771 1775 *);
   (Simple (Arr (3255669879188891 # 65536) (24248584744599 # 70368744177664) (6207114064308117 # 16777216)), [Conc 12; Conc 22]) (* r79b 772 1776 *);
   (Simple (Arr (60000000000 # 1) (0 # 1) (0 # 1)), [Conc 20; Conc 20]) (* r80f 774 1777 *);
   (Simple (Arr (4213503159183239 # 2097152) (59499403240105 # 140737488355328) (5827237275220893 # 16777216)), [Conc 17; Conc 22]) (* r80b 775 1778 *);
   (Falloff (Arr (4000000000000000079538499354624 # 1) ((-3332663724254167) # 562949953421312) (13137760 # 1)) (Arr (2790000000000000 # 1) ((-6440147467139809) # 4503599627370496) (5564720 # 1)) [Decay (662029145223463 # 1125899906842624) (195 # 1); Decay (7421932185906577 # 18014398509481984) (5900 # 1); Grow (1 # 1) (6394 # 1)] 14, [Conc 7; Conc 4]) (* r81f 784 1779 *);
   (Falloff (Arr (984725489750359443889806166069052702720 # 1) ((-946722559177825) # 140737488355328) (3380571532199263 # 8388608)) (Arr (686846029100875767611392 # 1) ((-1259244945849609) # 562949953421312) (6634088536541887 # 16777216)) [Decay (662029145223463 # 1125899906842624) (195 # 1); Decay (7421932185906577 # 18014398509481984) (5900 # 1); Grow (1 # 1) (6394 # 1)] 14, [Conc 22]) (* r81b 789 1780 *);
   (Falloff (Arr (43600000000000000771751936 # 1) ((-2617717283409101) # 562949953421312) (21254720 # 1)) (Arr (1055000000 # 1) (1 # 2) (359824 # 1)) [Decay (3602879701896397 # 9007199254740992) (100 # 1); Decay (5404319552844595 # 9007199254740992) (90000 # 1); Grow (1 # 1) (10000 # 1)] 15, [Conc 0; Conc 19]) (* r82f 796 1781 *);
   (Falloff (Arr (1446065391456279722812564832256 # 1) ((-158910309934293) # 35184372088832) (7112720747340769 # 16777216)) (Arr (8957645434048439 # 256) (356627301171069 # 562949953421312) (211317580120351 # 524288)) [Decay (3602879701896397 # 9007199254740992) (100 # 1); Decay (5404319552844595 # 9007199254740992) (90000 # 1); Grow (1 # 1) (10000 # 1)] 15, [Conc 22]) (* r82b 801 1782 *);
   (Falloff (Arr (466000000000000049577955439407005696 # 1) ((-8376695306909123) # 1125899906842624) (7906862993244161 # 134217728)) (Arr (2430000000 # 1) (4638707616191611 # 9007199254740992) (209200 # 1)) [Decay (1351079888211149 # 4503599627370496) (100 # 1); Decay (3152519739159347 # 4503599627370496) (90000 # 1); Grow (1 # 1) (10000 # 1)] 16, [Conc 0; Conc 20]) (* r83f 809 1783 *);
   (Falloff (Arr (1282723234001711348617174413688575098880 # 1) ((-1031305826793511) # 140737488355328) (8272543803856707 # 16777216)) (Arr (3424705877286629 # 512) (5648697156679891 # 9007199254740992) (7287695723288387 # 16777216)) [Decay (1351079888211149 # 4503599627370496) (100 # 1); Decay (3152519739159347 # 4503599627370496) (90000 # 1); Grow (1 # 1) (10000 # 1)] 16, [Conc 22]) (* r83b 814 1784 *);
   (Simple (Arr (32000000000 # 1) (0 # 1) (25501480 # 1)), [Conc 22; Conc 0]) (* r84f 815 1785 *);
   (Simple (Arr (7552562477447099 # 33554432) (30301153973075 # 140737488355328) (7500705395054163 # 134217728)), [Conc 1; Conc 19]) (* r84b 816 1786 *);
   (Simple (Arr (8000000000 # 1) (0 # 1) (25501480 # 1)), [Conc 22; Conc 0]) (* r85f 818 1787 *);
   (Simple (Arr (710949503874337 # 1048576) (266465188144913 # 1125899906842624) (3276223708494831 # 134217728)), [Conc 1; Conc 20]) (* r85b 819 1788 *);
   (Simple (Arr (6825768185233407 # 17592186044416) (5 # 2) (6918505119088641 # 536870912)), [Conc 22; Conc 5]) (* r86f 821 1789 *);
   (Simple (Arr (7209052141070671 # 4503599627370496) (754428416610245 # 281474976710656) (2516829146574487 # 67108864)), [Conc 7; Conc 19]) (* r86b 823 1790 *);
   (Simple (Arr (1000 # 1) (4728779608739021 # 2251799813685248) (4462885055391335 # 2147483648)), [Conc 22; Conc 7]) (* r87f 825 1791 *);
   (Simple (Arr (956993824176835 # 1099511627776) (1262721902408775 # 562949953421312) (8549090738093815 # 134217728)), [Conc 8; Conc 20]) (* r87b 827 1792 *);
   (Simple (Arr (7100 # 1) (8106479329266893 # 4503599627370496) ((-2493664) # 1)), [Conc 22; Conc 7]) (* r88f 829 1793 *);
   (Simple (Arr (1127828541673609 # 2199023255552) (270452234550547 # 140737488355328) (1519993524026971 # 16777216)), [Conc 8; Conc 19]) (* r88b 831 1794 *);
   (Simple (Arr (20500000000 # 1) (0 # 1) (187861600 # 1)), [Conc 22; Conc 21]) (* r89f 833 1795 *);
   (Simple (Arr (919254280978011 # 1048576) ((-164837093787583) # 1125899906842624) ((-1364803145543953) # 134217728)), [Conc 23; Conc 19]) (* r89b 834 1796 *);
   (Simple (Arr (5424022801214341 # 562949953421312) (6530219459687219 # 2251799813685248) (7362143028510721 # 134217728)), [Conc 22; Conc 15]) (* r90f 836 1797 *);
   (Simple (Arr (6209187166006849 # 140737488355328) (2989970266453013 # 1125899906842624) (8235977097131151 # 268435456)), [Conc 17; Conc 19]) (* r90b 838 1798 *);
   (Simple (Arr (39800000000 # 1) (0 # 1) (81169600 # 1)), [Conc 22; Conc 23]) (* r91f 840 1799 *);
   (Simple (Arr (2110519456219527 # 8192) ((-603119163683147) # 1125899906842624) (3034490467189321 # 67108864)), [Conc 24; Conc 19]) (* r91b 841 1800 *);
   (Simple (Arr (2298637249809901 # 72057594037927936) (1784551352345559 # 562949953421312) (8055116674367489 # 268435456)), [Conc 22; Conc 4]) (* r92f 843 1801 *);
   (Simple (Arr (5497243605338885 # 72057594037927936) (871199839734599 # 281474976710656) (2292709602034219 # 33554432)), [Conc 6; Conc 19]) (* r92b 845 1802 *);
   (Simple (Arr (300000000 # 1) (0 # 1) (16987040 # 1)), [Conc 20; Conc 22]) (* r93f 847 1803 *);
   (Simple (Arr (3341771409592539 # 134217728) ((-24055956360141) # 1125899906842624) (3252221800402285 # 67108864)), [Conc 19; Conc 22]) (* r93b 848 1804 *);
   (Simple (Arr (4990000000 # 1) (3602879701896397 # 36028797018963968) (44350400 # 1)), [Conc 4; Conc 4]) (* r94f 850 1805 *);
   (Simple (Arr (2870827911601257 # 4) ((-600473255856639) # 562949953421312) (7593847889919835 # 1073741824)), [Conc 16; Conc 0]) (* r94b 852 1806 *);
   (Simple (Arr (2460 # 1) (2 # 1) (34601680 # 1)), [Conc 6; Conc 2]) (* r95f 854 1807 *);
   (Simple (Arr (1649422659037963 # 549755813888) (500775324809181 # 281474976710656) (7760974824171851 # 134217728)), [Conc 4; Conc 4]) (* r95b 855 1808 *);
   (Simple (Arr (16000000000 # 1) (0 # 1) ((-2384880) # 1)), [Conc 6; Conc 3]) (* r96f 857 1809 *);
   (Simple (Arr (7459339830572095 # 524288) ((-318826678490803) # 1125899906842624) (7803517209215859 # 134217728)), [Conc 4; Conc 4]) (* r96b 858 1810 *);
   (Simple (Arr (56000 # 1) (3602879701896397 # 2251799813685248) (22677280 # 1)), [Conc 4; Conc 7]) (* r97f 860 1811 *);
   (Simple (Arr (6099597728219063 # 4398046511104) (1135719877619059 # 562949953421312) (1819559771742415 # 33554432)), [Conc 8; Conc 2]) (* r97b 862 1812 *);
   (Simple (Arr (25010000000 # 1) (0 # 1) (0 # 1)), [Conc 4; Conc 7]) (* r98f 864 1813 *);
   (Simple (Arr (1781613420118859 # 2097152) (4321024546651659 # 9007199254740992) ((-3088993386520797) # 536870912)), [Conc 8; Conc 3]) (* r98b 865 1814 *);
   (Simple (Arr (40000000000 # 1) (0 # 1) (0 # 1)), [Conc 4; Conc 2]) (* r99f 867 1815 *);
   (Simple (Arr (361260445323250496 # 1) ((-86634628541459) # 70368744177664) (4626826930574097 # 16777216)), [Conc 0; Conc 14]) (* r99b 868 1816 *);
   (Simple (Arr (12000000000 # 1) (0 # 1) ((-2384880) # 1)), [Conc 4; Conc 3]) (* r100f 870 1817 *);
   (Simple (Arr (79017837860857440 # 1) ((-91017638794079) # 70368744177664) (5212664588027503 # 16777216)), [Conc 0; Conc 14]) (* r100b 871 1818 *);
   (Simple (Arr (16000000000 # 1) (0 # 1) (0 # 1)), [Conc 20; Conc 0]) (* r101f 873 1819 *);
   (Simple (Arr (6681616420052513 # 1099511627776) (1574829785806117 # 1125899906842624) (5175414874000143 # 134217728)), [Conc 8; Conc 3]) (* r101b 874 1820 *);
   (Falloff (Arr (187999999999999973339011984916480 # 1) ((-7160723407519089) # 1125899906842624) (21087360 # 1)) (Arr (482000000000000 # 1) ((-5224175567749775) # 4503599627370496) (4790680 # 1)) [Decay (894640065977149 # 2251799813685248) (208 # 1); Decay (1357159747708099 # 2251799813685248) (3922 # 1); Grow (1 # 1) (10180 # 1)] 17, [Conc 3; Conc 8]) (* r102f 883 1821 *);
   (Falloff (Arr (1362520869630205379504999507782923240603648 # 1) ((-1076163062595579) # 140737488355328) (6991046264040897 # 16777216)) (Arr (3493271591285952643858432 # 1) ((-2754624985182987) # 1125899906842624) (3358816671799009 # 8388608)) [Decay (894640065977149 # 2251799813685248) (208 # 1); Decay (1357159747708099 # 2251799813685248) (3922 # 1); Grow (1 # 1) (10180 # 1)] 17, [Conc 22]) (* r102b 889 1822 *);
   (Simple (Arr (115000 # 1) (4278419646001971 # 2251799813685248) (31505520 # 1)), [Conc 18; Conc 0]) (* r103f 891 1823 *);
   (Simple (Arr (6996540495968657 # 281474976710656) (85829817411289 # 35184372088832) (1445264658049793 # 33554432)), [Conc 1; Conc 16]) (* r103b 893 1824 *);
   (Simple (Arr (89800 # 1) (1080863910568919 # 562949953421312) (23806960 # 1)), [Conc 18; Conc 5]) (* r104f 895 1825 *);
   (Simple (Arr (6408908246359709 # 562949953421312) (5459253645696033 # 2251799813685248) (7947705449375153 # 268435456)), [Conc 7; Conc 16]) (* r104b 897 1826 *);
   (Simple (Arr (3540 # 1) (2386907802506363 # 1125899906842624) (7817012277411841 # 2147483648)), [Conc 18; Conc 7]) (* r105f 899 1827 *);
   (Simple (Arr (4423634361359381 # 562949953421312) (180552559310605 # 70368744177664) (5228855002776635 # 67108864)), [Conc 8; Conc 16]) (* r105b 901 1828 *);
   (Simple (Arr (40000000000 # 1) (0 # 1) (7145939743539201 # 33554432)), [Conc 18; Conc 21]) (* r106f 903 1829 *);
   (Simple (Arr (7055097569178581 # 134217728) (1600784068706961 # 9007199254740992) ((-1041793344616009) # 268435456)), [Conc 23; Conc 16]) (* r106b 904 1830 *);
   (Simple (Arr (294000000 # 1) (0 # 1) (62508960 # 1)), [Conc 18; Conc 23]) (* r107f 906 1831 *);
   (Simple (Arr (3924594811633623 # 67108864) ((-119092030653929) # 562949953421312) (8311174880612069 # 1073741824)), [Conc 24; Conc 16]) (* r107b 907 1832 *);
   (Simple (Arr (6140 # 1) (7836263351624663 # 4503599627370496) (43722800 # 1)), [Conc 18; Conc 4]) (* r108f 909 1833 *);
   (Simple (Arr (7938052852090021 # 17592186044416) (559924398632303 # 281474976710656) (4243079789137719 # 67108864)), [Conc 6; Conc 16]) (* r108b 911 1834 *);
   (Falloff (Arr (199000000000000016263126324682424320 # 1) ((-3985685670222889) # 562949953421312) (27970040 # 1)) (Arr (521000000000000 # 1) ((-4458563631096791) # 4503599627370496) (6610720 # 1)) [Decay (1421336042398129 # 9007199254740992) (125 # 1); Decay (7585863212342863 # 9007199254740992) (2219 # 1); Grow (1 # 1) (6882 # 1)] 18, [Conc 16; Conc 0]) (* r109f 920 1835 *);
   (Falloff (Arr (214784657785554611266449176414856190885888 # 1) ((-511625112118773) # 70368744177664) (1885268010699851 # 4194304)) (Arr (562325661840572743680 # 1) ((-5317085444915151) # 4503599627370496) (7182722117546285 # 16777216)) [Decay (1421336042398129 # 9007199254740992) (125 # 1); Decay (7585863212342863 # 9007199254740992) (2219 # 1); Grow (1 # 1) (6882 # 1)] 18, [Conc 18]) (* r109b 926 1836 *);
   (Simple (Arr (2000000000 # 1) (0 # 1) (0 # 1)), [Conc 16; Conc 0]) (* r110f 928 1837 *);
   (Simple (Arr (1270271617817651 # 4194304) (62849192215139 # 140737488355328) (2364740815657451 # 8388608)), [Conc 1; Conc 14]) (* r110b 929 1838 *);
   (Simple (Arr (132000000000 # 1) (0 # 1) (0 # 1)), [Conc 16; Conc 5]) (* r111f 931 1839 *);
   (Simple (Arr (4584464070284267 # 33554432) (122731233317331 # 140737488355328) (5594145530700731 # 16777216)), [Conc 17; Conc 4]) (* r111b 932 1840 *);
   (Simple (Arr (20000000 # 1) (0 # 1) (0 # 1)), [Conc 16; Conc 21]) (* r112f 934 1841 *);
   (Simple (Arr (1235674280428807 # 67108864) (95547212146847 # 1125899906842624) (1794684521428221 # 33554432)), [Conc 23; Conc 14]) (* r112b 935 1842 *);
   (Simple (Arr (1400000000 # 1) (0 # 1) (0 # 1)), [Conc 16; Conc 16]) (* r113f 937 1843 *);
   (Simple (Arr (8034871834899855 # 8192) ((-13068849554857) # 140737488355328) (566928027065295 # 2097152)), [Conc 18; Conc 14]) (* r113b 938 1844 *);
   (Simple (Arr (120000000000 # 1) (0 # 1) (0 # 1)), [Conc 16; Conc 15]) (* r114f 940 1845 *);
   (Simple (Arr (1662196168058213 # 64) (5887276237297 # 140737488355328) (374671298424857 # 1048576)), [Conc 12; Conc 18]) (* r114b 941 1846 *);
   (Simple (Arr (80200000000 # 1) (0 # 1) (0 # 1)), [Conc 16; Conc 5]) (* r115f 943 1847 *);
   (Simple (Arr (1621501436062009 # 16) ((-37768963194763) # 70368744177664) (665539917264027 # 2097152)), [Conc 0; Conc 31]) (* r115b 944 1848 *);
   (Falloff (Arr (699999999999999949562451716946656452454828212224 # 1) ((-5241064066352415) # 562949953421312) (7009759752355841 # 16777216)) (Arr (8000000000000 # 1) (7926335344172073 # 18014398509481984) (371413680 # 1)) [Decay (2391411402133733 # 9007199254740992) (180 # 1); Decay (6615787852607259 # 9007199254740992) (1035 # 1); Grow (1 # 1) (5417 # 1)] 19, [Conc 14]) (* r116f 953 1849 *);
   (Falloff (Arr (1362076412913235776335391706839938156724224 # 1) ((-79142405178985) # 8796093022208) (3986237445951513 # 16777216)) (Arr (1044656008592025 # 67108864) (1694592457611009 # 2251799813685248) (6415530456621105 # 33554432)) [Decay (2391411402133733 # 9007199254740992) (180 # 1); Decay (6615787852607259 # 9007199254740992) (1035 # 1); Grow (1 # 1) (5417 # 1)] 19, [Conc 10; Conc 1]) (* r116b 959 1850 *);
   (Falloff (Arr (1199999999999999962360393295015706624 # 1) ((-8579357290140795) # 1125899906842624) (7828243616890881 # 268435456)) (Arr (1080000000 # 1) (8178536923304821 # 18014398509481984) (7614880 # 1)) [Decay (222477821592103 # 9007199254740992) (210 # 1); Decay (8784721433148889 # 9007199254740992) (984 # 1); Grow (1 # 1) (4374 # 1)] 20, [Conc 14; Conc 0]) (* r117f 968 1851 *);
   (Falloff (Arr (1848717070802452568652610317451859591168 # 1) ((-2172359236789143) # 281474976710656) (756413412431023 # 4194304)) (Arr (3407555304903081 # 2048) (6417262411052389 # 18014398509481984) (666036227560623 # 4194304)) [Decay (222477821592103 # 9007199254740992) (210 # 1); Decay (8784721433148889 # 9007199254740992) (984 # 1); Grow (1 # 1) (4374 # 1)] 20, [Conc 16]) (* r117b 974 1852 *);
   (Falloff (Arr (1400000000000000083886080 # 1) ((-8691947280825057) # 2251799813685248) (7457609414082561 # 536870912)) (Arr (6080000000 # 1) (607985949695017 # 2251799813685248) (5031640086609921 # 4294967296)) [Decay (61361544922923 # 281474976710656) (415 # 2); Decay (220113431787733 # 281474976710656) (2663 # 1); Grow (1 # 1) (6095 # 1)] 21, [Conc 11; Conc 0]) (* r118f 983 1853 *);
   (Falloff (Arr (767749675794433150774746808320 # 1) ((-281167704745973) # 70368744177664) (2014943562929225 # 4194304)) (Arr (3334227163450110 # 1) (151283339324469 # 1125899906842624) (7846378801615141 # 16777216)) [Decay (61361544922923 # 281474976710656) (415 # 2); Decay (220113431787733 # 281474976710656) (2663 # 1); Grow (1 # 1) (6095 # 1)] 21, [Conc 14]) (* r118b 989 1854 *);
   (Simple (Arr (1325 # 1) (5697053528623677 # 2251799813685248) (51212160 # 1)), [Conc 14; Conc 0]) (* r119f 991 1855 *);
   (Simple (Arr (317314530261177 # 562949953421312) (3393950280540691 # 1125899906842624) (4773497081649191 # 268435456)), [Conc 1; Conc 11]) (* r119b 993 1856 *);
   (Simple (Arr (7916483719987199 # 4398046511104) (2 # 1) (10460000 # 1)), [Conc 14; Conc 7]) (* r120f 995 1857 *);
   (Simple (Arr (8853949393099557 # 1125899906842624) (2691812142216967 # 1125899906842624) (1333443408601625 # 33554432)), [Conc 8; Conc 11]) (* r120b 996 1858 *);
   (Simple (Arr (7986852464164863 # 35184372088832) (2 # 1) (38492800 # 1)), [Conc 14; Conc 4]) (* r121f 998 1859 *);
   (Simple (Arr (2310415222198493 # 70368744177664) (2470510752376563 # 1125899906842624) (1744910322146825 # 134217728)), [Conc 6; Conc 11]) (* r121b 999 1860 *);
   (Simple (Arr (19200 # 1) (1030198414761001 # 562949953421312) (7906862993244161 # 8589934592)), [Conc 14; Conc 5]) (* r122f 1001 1861 *);
   (Simple (Arr (907904733214179 # 4503599627370496) (1528500926757585 # 562949953421312) (7181482549059045 # 67108864)), [Conc 15; Conc 4]) (* r122b 1003 1862 *);
   (Simple (Arr (5000000000 # 1) (0 # 1) (0 # 1)), [Conc 11; Conc 7]) (* r123f 1005 1863 *);
   (Simple (Arr (7181834985964129 # 131072) (11722430821177 # 140737488355328) (731910947325819 # 2097152)), [Conc 8; Conc 10]) (* r123b 1006 1864 *);
   (Simple (Arr (15100 # 1) (8601875288277647 # 4503599627370496) (15648160 # 1)), [Conc 14; Conc 5]) (* r124f 1008 1865 *);
   (Simple (Arr (8484050202649531 # 2251799813685248) (5312894011695683 # 2251799813685248) ((-6320986826414941) # 268435456)), [Conc 11; Conc 7]) (* r124b 1010 1866 *);
   (Simple (Arr (42150000000 # 1) (0 # 1) (240998400 # 1)), [Conc 14; Conc 21]) (* r125f 1012 1867 *);
   (Simple (Arr (7315924079261481 # 67108864) (69088595328523 # 562949953421312) ((-1398844242759021) # 67108864)), [Conc 23; Conc 11]) (* r125b 1013 1868 *);
   (Simple (Arr (96400000000 # 1) (0 # 1) (0 # 1)), [Conc 11; Conc 0]) (* r126f 1015 1869 *);
   (Simple (Arr (6741429588477575 # 65536) (3112353660407 # 17592186044416) (300200103195139 # 1048576)), [Conc 1; Conc 10]) (* r126b 1016 1870 *);
   (Simple (Arr (60000000000 # 1) (0 # 1) (0 # 1)), [Conc 11; Conc 5]) (* r127f 1018 1871 *);
   (Simple (Arr (8173984205660849 # 32) ((-84604708636501) # 140737488355328) (6360685365397533 # 16777216)), [Conc 0; Conc 26]) (* r127b 1019 1872 *);
   (Simple (Arr (12100000 # 1) (0 # 1) ((-2493664) # 1)), [Conc 11; Conc 24]) (* r128f 1021 1873 *);
   (Simple (Arr (1037072409835185 # 33554432) (75026219810043 # 281474976710656) (6527755176490001 # 67108864)), [Conc 23; Conc 14]) (* r128b 1022 1874 *);
   (Simple (Arr (390000000 # 1) (0 # 1) (0 # 1)), [Conc 11; Conc 4]) (* r129f 1024 1875 *);
   (Simple (Arr (4636493616094485 # 32768) ((-7970121454455) # 70368744177664) (2468183661944633 # 8388608)), [Conc 6; Conc 10]) (* r129b 1025 1876 *);
   (Simple (Arr (960000000 # 1) (0 # 1) (0 # 1)), [Conc 11; Conc 11]) (* r130f 1027 1877 *);
   (Simple (Arr (4931646399406169 # 2048) ((-5409888780659) # 17592186044416) (5364055553665749 # 16777216)), [Conc 10; Conc 14]) (* r130b 1028 1878 *);
   (Simple (Arr (45800000000000 # 1) ((-6260003482044989) # 4503599627370496) (4246760 # 1)), [Conc 11; Conc 21]) (* r131f 1030 1879 *);
   (Simple (Arr (4673728832143667 # 8192) ((-57271368577651) # 70368744177664) (786707169953949 # 2097152)), [Conc 17; Conc 15]) (* r131b 1032 1880 *);
   (Simple (Arr (1337 # 1) (7250795400066499 # 4503599627370496) ((-6900534975922177) # 4294967296)), [Conc 11; Conc 21]) (* r132f 1034 1881 *);
   (Simple (Arr (2384260538220929 # 274877906944) (100290197419281 # 70368744177664) (7552856526173799 # 134217728)), [Conc 10; Conc 23]) (* r132b 1036 1882 *);
   (Simple (Arr (100000000 # 1) (5224175567749775 # 18014398509481984) (46024 # 1)), [Conc 11; Conc 21]) (* r133f 1038 1883 *);
   (Simple (Arr (3221508864725483 # 524288) ((-338047220838241) # 2251799813685248) (7101420857465527 # 268435456)), [Conc 28; Conc 5]) (* r133b 1040 1884 *);
   (Falloff (Arr (37999999999999996778937272900780032 # 1) ((-2046323080686469) # 281474976710656) (8109027103866881 # 268435456)) (Arr (5600000000 # 1) (0 # 1) (10041600 # 1)) [Decay (2245494774206929 # 9007199254740992) (197 # 2); Decay (6761704480534063 # 9007199254740992) (1302 # 1); Grow (1 # 1) (4167 # 1)] 22, [Conc 10; Conc 0]) (* r134f 1048 1885 *);
   (Falloff (Arr (8307769873673793829678693054257561600 # 1) ((-1997942269076665) # 281474976710656) (5938965195705557 # 33554432)) (Arr (626843099520987 # 512) (12095202902451 # 70368744177664) (1315569248023349 # 8388608)) [Decay (2245494774206929 # 9007199254740992) (197 # 2); Decay (6761704480534063 # 9007199254740992) (1302 # 1); Grow (1 # 1) (4167 # 1)] 22, [Conc 11]) (* r134b 1054 1886 *);
   (Simple (Arr (16320 # 1) (2 # 1) (7949600 # 1)), [Conc 10; Conc 5]) (* r135f 1056 1887 *);
   (Simple (Arr (867405443244827 # 17179869184) (1023254581594401 # 562949953421312) (3013563047018937 # 33554432)), [Conc 0; Conc 25]) (* r135b 1057 1888 *);
   (Simple (Arr (46000000000000000 # 1) ((-6350075474592399) # 4503599627370496) (121126800 # 1)), [Conc 10; Conc 5]) (* r136f 1059 1889 *);
   (Simple (Arr (2390657607608091 # 256) ((-1913872494763193) # 2251799813685248) ((-8626202147143055) # 1073741824)), [Conc 7; Conc 9]) (* r136b 1061 1890 *);
   (Simple (Arr (4080 # 1) (2 # 1) (7949600 # 1)), [Conc 10; Conc 5]) (* r137f 1063 1891 *);
   (Simple (Arr (6137189377887385 # 576460752303423488) (466705540403591 # 140737488355328) (6673964952681271 # 33554432)), [Conc 12; Conc 2]) (* r137b 1064 1892 *);
   (Simple (Arr (8235807146124661 # 37778931862957161709568) (9 # 2) ((-4184000) # 1)), [Conc 10; Conc 7]) (* r138f 1066 1893 *);
   (Simple (Arr (6838510877849761 # 4611686018427387904) (264372913117725 # 70368744177664) (396007044240325 # 4194304)), [Conc 0; Conc 26]) (* r138b 1068 1894 *);
   (Simple (Arr (504 # 1) (2589569785738035 # 1125899906842624) (56484000 # 1)), [Conc 10; Conc 7]) (* r139f 1070 1895 *);
   (Simple (Arr (3092533748842773 # 33554432) (1290235101800703 # 1125899906842624) (982878941105953 # 33554432)), [Conc 0; Conc 27]) (* r139b 1072 1896 *);
   (Simple (Arr (4631692732006399 # 137438953472) (2 # 1) (58576000 # 1)), [Conc 10; Conc 7]) (* r140f 1074 1897 *);
   (Simple (Arr (8429416798761297 # 70368744177664) (2816416579704353 # 1125899906842624) ((-4529462938578511) # 2147483648)), [Conc 8; Conc 9]) (* r140b 1075 1898 *);
   (Simple (Arr (4561806022452077 # 9444732965739290427392) (4 # 1) ((-8368000) # 1)), [Conc 10; Conc 7]) (* r141f 1077 1899 *);
   (Simple (Arr (1077212280131777 # 1208925819614629174706176) (1362369594344367 # 281474976710656) (1841363288717313 # 8388608)), [Conc 12; Conc 4]) (* r141b 1078 1900 *);
   (Simple (Arr (6030000 # 1) (0 # 1) (8922176082149375 # 268435456)), [Conc 10; Conc 23]) (* r142f 1080 1901 *);
   (Simple (Arr (8448531383400653 # 1073741824) (2617098891207 # 140737488355328) (1190855673468259 # 4194304)), [Conc 7; Conc 26]) (* r142b 1081 1902 *);
   (Simple (Arr (100000000000 # 1) (0 # 1) (0 # 1)), [Conc 25; Conc 0]) (* r143f 1083 1903 *);
   (Simple (Arr (7949756945017587 # 68719476736) (878631662040881 # 562949953421312) (2408703296967359 # 33554432)), [Conc 12; Conc 3]) (* r143b 1084 1904 *);
   (Simple (Arr (100000000000 # 1) (0 # 1) (0 # 1)), [Conc 25; Conc 5]) (* r144f 1086 1905 *);
   (Simple (Arr (7053876873848415 # 4398046511104) (6091073401263 # 4398046511104) (7159883563493283 # 16777216)), [Conc 12; Conc 12; Conc 0]) (* r144b 1087 1906 *);
   (Simple (Arr (1600000000 # 1) (0 # 1) (7673251132080129 # 2147483648)), [Conc 25; Conc 21]) (* r145f 1089 1907 *);
   (Simple (Arr (1838449663739047 # 36028797018963968) (16008074684659 # 8796093022208) (1508998610456311 # 4194304)), [Conc 12; Conc 12; Conc 7]) (* r145b 1090 1908 *);
   (Simple (Arr (10000000000 # 1) (0 # 1) (0 # 1)), [Conc 25; Conc 7]) (* r146f 1092 1909 *);
   (Simple (Arr (3213504417026545 # 549755813888) (59019848694685 # 70368744177664) (1067825708333011 # 16777216)), [Conc 12; Conc 0; Conc 15]) (* r146b 1093 1910 *);
   (Simple (Arr (30000000000 # 1) (0 # 1) (0 # 1)), [Conc 25; Conc 2]) (* r147f 1095 1911 *);
   (Simple (Arr (5283971686329611 # 131072) (33874190952353 # 140737488355328) (200591926478979 # 524288)), [Conc 12; Conc 11]) (* r147b 1096 1912 *);
   (Simple (Arr (10000000000 # 1) (0 # 1) (0 # 1)), [Conc 25; Conc 25]) (* r148f 1098 1913 *);
   (Simple (Arr (3648091488562309 # 70368744177664) (220575680152467 # 140737488355328) (2893237098148715 # 8388608)), [Conc 12; Conc 12; Conc 10]) (* r148b 1099 1914 *);
   (Simple (Arr (50000000000 # 1) (0 # 1) (0 # 1)), [Conc 4; Conc 25]) (* r149f 1101 1915 *);
   (Simple (Arr (6240334166226099 # 16384) (37622637922099 # 140737488355328) (807128485425655 # 2097152)), [Conc 12; Conc 14]) (* r149b 1102 1916 *);
   (Falloff (Arr (3750000000000000118547808256 # 1) ((-5404319552844595) # 1125899906842624) (7949600 # 1)) (Arr (100000000000000 # 1) ((-1) # 1) (0 # 1)) [Decay (3184945656476415 # 9007199254740992) (132 # 1); Decay (5822253598264577 # 9007199254740992) (1315 # 1); Grow (1 # 1) (5566 # 1)] 23, [Conc 9; Conc 0]) (* r150f 1110 1917 *);
   (Falloff (Arr (2527550222769102153826967077519360 # 1) ((-355102101615917) # 70368744177664) (4734728386202463 # 8388608)) (Arr (67401339273842737152 # 1) ((-1403213979852701) # 1125899906842624) (4668042308045663 # 8388608)) [Decay (3184945656476415 # 9007199254740992) (132 # 1); Decay (5822253598264577 # 9007199254740992) (1315 # 1); Grow (1 # 1) (5566 # 1)] 23, [Conc 10]) (* r150b 1116 1918 *);
   (Simple (Arr (20000000000 # 1) (0 # 1) (0 # 1)), [Conc 9; Conc 7]) (* r151f 1118 1919 *);
   (Simple (Arr (4876548310603953 # 16) ((-104484158970191) # 140737488355328) (1770182131366929 # 8388608)), [Conc 25; Conc 0]) (* r151b 1119 1920 *);
   (Simple (Arr (50000000000 # 1) (0 # 1) (6738803687424001 # 1073741824)), [Conc 9; Conc 21]) (* r152f 1121 1921 *);
   (Simple (Arr (8132490537652617 # 67108864) (29732238266303 # 35184372088832) (2674694275774685 # 4194304)), [Conc 12; Conc 15]) (* r152b 1122 1922 *);
   (Simple (Arr (490 # 1) (5 # 2) (5031640086609921 # 2147483648)), [Conc 9; Conc 1]) (* r153f 1124 1923 *);
   (Simple (Arr (6080349840543945 # 4294967296) (67022556668487 # 35184372088832) (2109524249284659 # 16777216)), [Conc 10; Conc 0]) (* r153b 1125 1924 *);
   (Falloff (Arr (3200000000000000000000 # 1) ((-7070651414971679) # 2251799813685248) (5525819023687681 # 1073741824)) (Arr (25000000000000 # 1) ((-3602879701896397) # 4503599627370496) (0 # 1)) [Decay (2882303761517117 # 9007199254740992) (78 # 1); Decay (6124895493223875 # 9007199254740992) (1995 # 1); Grow (1 # 1) (5590 # 1)] 24, [Conc 2; Conc 0]) (* r154f 1133 1925 *);
   (Falloff (Arr (309565805217702043713536000 # 1) ((-464752864845903) # 140737488355328) (7874978643694049 # 16777216)) (Arr (2418482853263297024 # 1) ((-4333668547021935) # 4503599627370496) (7788637721448929 # 16777216)) [Decay (2882303761517117 # 9007199254740992) (78 # 1); Decay (6124895493223875 # 9007199254740992) (1995 # 1); Grow (1 # 1) (5590 # 1)] 24, [Conc 4]) (* r154b 1139 1926 *);
   (Simple (Arr (80000000000 # 1) (0 # 1) (0 # 1)), [Conc 2; Conc 5]) (* r155f 1141 1927 *);
   (Simple (Arr (1942091336530637 # 256) ((-12173407270943) # 35184372088832) (6406754476055173 # 16777216)), [Conc 0; Conc 15]) (* r155b 1142 1928 *);
   (Simple (Arr (20000000000 # 1) (0 # 1) (0 # 1)), [Conc 2; Conc 7]) (* r156f 1144 1929 *);
   (Simple (Arr (8420080721621767 # 4) ((-27114137356115) # 35184372088832) (1397057791097473 # 4194304)), [Conc 0; Conc 17]) (* r156b 1145 1930 *);
   (Simple (Arr (500 # 1) (2 # 1) (8120258443345921 # 268435456)), [Conc 2; Conc 1]) (* r157f 1147 1931 *);
   (Simple (Arr (7124049966201627 # 34359738368) (104774295106207 # 70368744177664) (8242270553398107 # 134217728)), [Conc 4; Conc 0]) (* r157b 1148 1932 *);
   (Simple (Arr (13200000000 # 1) (0 # 1) (6738803687424001 # 1073741824)), [Conc 2; Conc 21]) (* r158f 1150 1933 *);
   (Simple (Arr (5219843487252479 # 2097152) (1565152128799 # 17592186044416) (5328211887533729 # 16777216)), [Conc 7; Conc 15]) (* r158b 1151 1934 *);
   (Simple (Arr (20000000000 # 1) (0 # 1) (0 # 1)), [Conc 2; Conc 23]) (* r159f 1153 1935 *);
   (Simple (Arr (826998912178975 # 2048) ((-633289584893) # 70368744177664) (2034948451105817 # 4194304)), [Conc 7; Conc 17]) (* r159b 1154 1936 *);
   (Falloff (Arr (2690000000000000043989860352 # 1) ((-5753348523965809) # 1125899906842624) (7968635360378881 # 268435456)) (Arr (810000000 # 1) (1 # 2) (18869840 # 1)) [Decay (230415415935343 # 562949953421312) (275 # 1); Decay (332534537485969 # 562949953421312) (1226 # 1); Grow (1 # 1) (5185 # 1)] 25, [Conc 2; Conc 12]) (* r160f 1162 1937 *);
   (Falloff (Arr (959502453224239846254987005915742339072 # 1) ((-964813432020249) # 140737488355328) (6117783159255279 # 16777216)) (Arr (288920813052652191744 # 1) ((-1402208978774871) # 1125899906842624) (371020426924815 # 1048576)) [Decay (230415415935343 # 562949953421312) (275 # 1); Decay (332534537485969 # 562949953421312) (1226 # 1); Grow (1 # 1) (5185 # 1)] 25, [Conc 26]) (* r160b 1168 1938 *);
   (Simple (Arr (32000000000 # 1) (0 # 1) (0 # 1)), [Conc 2; Conc 2]) (* r161f 1170 1939 *);
   (Simple (Arr (54402246781969480 # 1) ((-76059437384709) # 70368744177664) (4695971172809207 # 8388608)), [Conc 1; Conc 10]) (* r161b 1171 1940 *);
   (Simple (Arr (9000000000 # 1) (0 # 1) (2510400 # 1)), [Conc 3; Third 26]) (* r162f 1173 1941 *);
   (Simple (Arr (3440296720501359 # 524288) ((-35064082020913) # 562949953421312) (2671867309575573 # 67108864)), [Conc 2; Third 26]) (* r162b 1174 1942 *);
   (Simple (Arr (30000000000 # 1) (0 # 1) (0 # 1)), [Conc 3; Conc 8]) (* r163f 1176 1943 *);
   (Simple (Arr (5733827867501041 # 262144) ((-70128164041871) # 1125899906842624) (2503397217389979 # 67108864)), [Conc 8; Conc 2]) (* r163b 1177 1944 *);
   (Simple (Arr (9000000000 # 1) (0 # 1) (0 # 1)), [Conc 3; Conc 12]) (* r164f 1179 1945 *);
   (Simple (Arr (6880593441001349 # 1048576) ((-35064082020937) # 562949953421312) (5006794434779955 # 134217728)), [Conc 12; Conc 2]) (* r164b 1180 1946 *);
   (Simple (Arr (7000000000 # 1) (0 # 1) (0 # 1)), [Conc 3; Conc 30]) (* r165f 1182 1947 *);
   (Simple (Arr (5351572676334911 # 1048576) ((-70128164041889) # 1125899906842624) (5006794434779963 # 134217728)), [Conc 30; Conc 2]) (* r165b 1183 1948 *);
   (Simple (Arr (9000000000 # 1) (0 # 1) (2510400 # 1)), [Conc 3; Conc 53]) (* r166f 1185 1949 *);
   (Simple (Arr (6880593441003963 # 1048576) ((-17532041010463) # 281474976710656) (2671867309575585 # 67108864)), [Conc 53; Conc 2]) (* r166b 1186 1950 *);
   (Simple (Arr (15000000000 # 1) (0 # 1) (0 # 1)), [Conc 3; Conc 5]) (* r167f 1188 1951 *);
   (Simple (Arr (6359033824129079 # 131072) (12172834209173 # 70368744177664) (6610700984996437 # 8388608)), [Conc 1; Conc 12]) (* r167b 1189 1952 *);
   (Simple (Arr (15000000000 # 1) (0 # 1) (0 # 1)), [Conc 3; Conc 5]) (* r168f 1191 1953 *);
   (Simple (Arr (8495801869678721 # 8192) ((-57459649588995) # 140737488355328) (7032603780402661 # 16777216)), [Conc 0; Conc 15]) (* r168b 1192 1954 *);
   (Simple (Arr (30000000000 # 1) (0 # 1) (0 # 1)), [Conc 3; Conc 7]) (* r169f 1194 1955 *);
   (Simple (Arr (2302136110697799 # 1) ((-29305642482421) # 35184372088832) (6214080468737377 # 16777216)), [Conc 0; Conc 17]) (* r169b 1195 1956 *);
   (Simple (Arr (70000000000 # 1) (0 # 1) (0 # 1)), [Conc 3; Conc 1]) (* r170f 1197 1957 *);
   (Simple (Arr (2708935024301895 # 128) ((-322769628014065) # 562949953421312) (574308485406555 # 8388608)), [Conc 0; Conc 4]) (* r170b 1198 1958 *);
   (Simple (Arr (28000000000 # 1) (0 # 1) (0 # 1)), [Conc 3; Conc 21]) (* r171f 1200 1959 *);
   (Simple (Arr (207207705858447 # 268435456) (36471279444319 # 140737488355328) (4771695518872183 # 16777216)), [Conc 12; Conc 7; Conc 0]) (* r171b 1201 1960 *);
   (Simple (Arr (12000000000 # 1) (0 # 1) (0 # 1)), [Conc 3; Conc 21]) (* r172f 1203 1961 *);
   (Simple (Arr (6648680932459467 # 8388608) (18096029017595 # 35184372088832) (6544825750669893 # 8388608)), [Conc 8; Conc 12]) (* r172b 1204 1962 *);
   (Simple (Arr (14000000000 # 1) (0 # 1) (0 # 1)), [Conc 3; Conc 30]) (* r173f 1206 1963 *);
   (Simple (Arr (6447595828451981 # 33554432) (62808386349637 # 140737488355328) (8822022386684611 # 33554432)), [Conc 12; Conc 17]) (* r173b 1207 1964 *);
   (Simple (Arr (7000000000000000 # 1) (0 # 1) (341724016 # 1)), [Conc 31]) (* r174f 1209 1965 *);
   (Simple (Arr (2594447989182713 # 68719476736) (427747023032477 # 281474976710656) ((-2780820699838767) # 134217728)), [Conc 15; Conc 4]) (* r174b 1210 1966 *);
   (Falloff (Arr (1200000000000 # 1) (0 # 1) (52375312 # 1)) (Arr (3000000000000 # 1) (0 # 1) (69964848 # 1)) [Grow (1 # 1) (0 # 1)] 27, [Conc 29]) (* r175f 1215 1967 *);
   (Falloff (Arr (4671797787505205 # 1099511627776) (5191679514346765 # 4503599627370496) (1304918263629057 # 536870912)) (Arr (2919873617190753 # 274877906944) (5191679514346765 # 4503599627370496) (41985267568773 # 2097152)) [Grow (1 # 1) (0 # 1)] 27, [Conc 12; Conc 4]) (* r175b 1221 1968 *);
   (Simple (Arr (3370000000 # 1) (0 # 1) ((-2594080) # 1)), [Conc 31; Conc 7]) (* r176f 1223 1969 *);
   (Simple (Arr (2648019150987751 # 1073741824) (60131223118821 # 70368744177664) (7818062748187183 # 67108864)), [Conc 8; Conc 29]) (* r176b 1224 1970 *);
   (Simple (Arr (337000000 # 1) (0 # 1) ((-2594080) # 1)), [Conc 31; Conc 7]) (* r177f 1226 1971 *);
   (Simple (Arr (429196250205099 # 134217728) (130602648150593 # 281474976710656) (1383035588372061 # 16777216)), [Conc 8; Conc 28]) (* r177b 1227 1972 *);
   (Simple (Arr (1770000000000000 # 1) ((-4278419646001971) # 2251799813685248) (12447400 # 1)), [Conc 31; Conc 5]) (* r178f 1229 1973 *);
   (Simple (Arr (2424076429515847 # 32768) ((-555572198926517) # 562949953421312) (8464348672417413 # 134217728)), [Conc 7; Conc 29]) (* r178b 1231 1974 *);
   (Simple (Arr (37200000000 # 1) ((-3602879701896397) # 18014398509481984) (14878304 # 1)), [Conc 31; Conc 5]) (* r179f 1233 1975 *);
   (Simple (Arr (5411662578522641 # 268435456) (90799116620173 # 281474976710656) (8437556589771335 # 268435456)), [Conc 7; Conc 28]) (* r179b 1235 1976 *);
   (Simple (Arr (46600000000 # 1) ((-3152519739159347) # 9007199254740992) (12501792 # 1)), [Conc 31; Conc 0]) (* r180f 1237 1977 *);
   (Simple (Arr (3565469158631205 # 1073741824) (168361447550751 # 281474976710656) (4622785859259335 # 67108864)), [Conc 1; Conc 29]) (* r180b 1239 1978 *);
   (Simple (Arr (1850000000 # 1) (3602879701896397 # 9007199254740992) (22422056 # 1)), [Conc 31; Conc 0]) (* r181f 1241 1979 *);
   (Simple (Arr (7341541726075045 # 4294967296) (539090871518141 # 562949953421312) (6005206224361091 # 134217728)), [Conc 1; Conc 28]) (* r181b 1243 1980 *);
   (Simple (Arr (3771848557197643 # 9671406556917033397649408) (6530219459687219 # 1125899906842624) (4941789370777601 # 536870912)), [Conc 31; Conc 4]) (* r182f 1245 1981 *);
   (Simple (Arr (5848509564734191 # 618970019642690137449562112) (908877204968461 # 140737488355328) (2467095581295223 # 33554432)), [Conc 6; Conc 29]) (* r182b 1247 1982 *);
   (Simple (Arr (3530822107858469 # 144115188075855872) (7093169413108531 # 2251799813685248) (6432188119646209 # 268435456)), [Conc 31; Conc 4]) (* r183f 1249 1983 *);
   (Simple (Arr (2218408908289349 # 288230376151711744) (3847693909316185 # 1125899906842624) (1819297063227945 # 33554432)), [Conc 6; Conc 28]) (* r183b 1251 1984 *);
   (Simple (Arr (36000000000000000 # 1) ((-2476979795053773) # 1125899906842624) (7878784644546561 # 134217728)), [Conc 31; Conc 23]) (* r184f 1253 1985 *);
   (Simple (Arr (2360778743180195 # 1) ((-2254997432923719) # 1125899906842624) (6543021195789713 # 134217728)), [Conc 24; Conc 29]) (* r184b 1255 1986 *);
   (Simple (Arr (232000000 # 1) (3602879701896397 # 9007199254740992) (8347131500822529 # 134217728)), [Conc 31; Conc 23]) (* r185f 1257 1987 *);
   (Simple (Arr (1654837884559055 # 8388608) (465306695136787 # 2251799813685248) (1219763631333911 # 67108864)), [Conc 24; Conc 28]) (* r185b 1259 1988 *);
   (Simple (Arr (100000000000 # 1) (0 # 1) (5924531575193601 # 33554432)), [Conc 31; Conc 21]) (* r186f 1261 1989 *);
   (Simple (Arr (1453678004415427 # 33554432) (5282115456206393 # 9007199254740992) (608620936319021 # 134217728)), [Conc 23; Conc 29]) (* r186b 1262 1990 *);
   (Simple (Arr (1750000000 # 1) (0 # 1) (6064923318681601 # 1073741824)), [Conc 26; Conc 5]) (* r187f 1264 1991 *);
   (Simple (Arr (8060316186587505 # 2147483648) (219544957554253 # 281474976710656) (3447219973571211 # 16777216)), [Conc 2; Conc 30]) (* r187b 1265 1992 *);
   (Simple (Arr (7627971868858777 # 281474976710656) (11 # 4) (2987376 # 1)), [Conc 26; Conc 0]) (* r188f 1267 1993 *);
   (Simple (Arr (4338585757118469 # 590295810358705651712) (19057369002861 # 4398046511104) (8876056498570223 # 67108864)), [Conc 12; Conc 4]) (* r188b 1269 1994 *);
   (Simple (Arr (200000000000 # 1) (0 # 1) (33472000 # 1)), [Conc 26; Conc 0]) (* r189f 1271 1995 *);
   (Simple (Arr (2601923362254997 # 16777216) (335368826430941 # 562949953421312) (6039882029961295 # 268435456)), [Conc 1; Conc 25]) (* r189b 1272 1996 *);
   (Simple (Arr (10000000000 # 1) (0 # 1) (33472000 # 1)), [Conc 26; Conc 5]) (* r190f 1274 1997 *);
   (Simple (Arr (1220890452309345 # 268435456) (1262584640823915 # 2251799813685248) (8984073358162875 # 536870912)), [Conc 7; Conc 25]) (* r190b 1275 1998 *);
   (Simple (Arr (10000000000 # 1) (0 # 1) (8368000 # 1)), [Conc 26; Conc 7]) (* r191f 1277 1999 *);
   (Simple (Arr (2672113824662839 # 33554432) (282663232582471 # 562949953421312) (8067226591143123 # 134217728)), [Conc 8; Conc 25]) (* r191b 1278 2000 *);
   (Simple (Arr (3730000000 # 1) (0 # 1) ((-4238392) # 1)), [Conc 26; Conc 7]) (* r192f 1280 2001 *);
   (Simple (Arr (8062535533806749 # 1073741824) (361852023540111 # 562949953421312) (7529552649527093 # 67108864)), [Conc 12; Conc 19]) (* r192b 1281 2002 *);
   (Simple (Arr (50000000000 # 1) (0 # 1) (0 # 1)), [Conc 28; Conc 0]) (* r193f 1283 2003 *);
   (Simple (Arr (1169761058923181 # 17179869184) (1475880192531457 # 1125899906842624) (1621237474629501 # 33554432)), [Conc 15; Conc 4]) (* r193b 1284 2004 *);
   (Simple (Arr (20000000000 # 1) (0 # 1) (0 # 1)), [Conc 28; Conc 0]) (* r194f 1286 2005 *);
   (Simple (Arr (4926004382879289 # 1048576) (43482626959333 # 140737488355328) (4830522654687663 # 16777216)), [Conc 1; Conc 26]) (* r194b 1287 2006 *);
   (Simple (Arr (100000000000 # 1) (0 # 1) (0 # 1)), [Conc 28; Conc 5]) (* r195f 1289 2007 *);
   (Simple (Arr (1360500055069319 # 67108864) (35756048646007 # 35184372088832) (5779341900809021 # 16777216)), [Conc 15; Conc 17]) (* r195b 1290 2008 *);
   (Simple (Arr (30000000000 # 1) (0 # 1) (0 # 1)), [Conc 28; Conc 7]) (* r196f 1292 2009 *);
   (Simple (Arr (4742709495276457 # 65536) (30306228497243 # 140737488355328) (5882608582172001 # 16777216)), [Conc 8; Conc 26]) (* r196b 1293 2010 *);
   (Simple (Arr (30000000 # 1) (0 # 1) (0 # 1)), [Conc 28; Conc 21]) (* r197f 1295 2011 *);
   (Simple (Arr (698979597151945 # 288230376151711744) (236955123617325 # 140737488355328) (3518433639278563 # 16777216)), [Conc 7; Conc 12; Conc 17]) (* r197b 1296 2012 *);
   (Simple (Arr (490000000000 # 1) ((-1) # 2) (0 # 1)), [Conc 28; Conc 4]) (* r198f 1298 2013 *);
   (Simple (Arr (5166075648951335 # 268435456) ((-69438799967309) # 562949953421312) ((-7135003962277751) # 134217728)), [Conc 0; Conc 12; Conc 16]) (* r198b 1299 2014 *);
   (Simple (Arr (7000000000 # 1) (0 # 1) (0 # 1)), [Conc 28; Conc 23]) (* r199f 1301 2015 *);
   (Simple (Arr (8959981308670225 # 4503599627370496) (824222385227263 # 562949953421312) (2323549640578205 # 33554432)), [Conc 7; Conc 15; Conc 17]) (* r199b 1302 2016 *);
   (Simple (Arr (3000000000 # 1) (0 # 1) (0 # 1)), [Conc 28; Conc 23]) (* r200f 1304 2017 *);
   (Simple (Arr (8749799113106915 # 16384) ((-27571931840607) # 140737488355328) (3457668269231787 # 16777216)), [Conc 21; Conc 31]) (* r200b 1305 2018 *);
   (Simple (Arr (11699999999999999705027562306923794270257152 # 1) ((-5533798042131497) # 562949953421312) (6142981128060929 # 33554432)), [Conc 28]) (* r201f 1307 2019 *);
   (Simple (Arr (3194949820121623908626183648968704 # 1) ((-2332496807093953) # 281474976710656) (5610074871904589 # 33554432)), [Conc 12; Conc 4]) (* r201b 1309 2020 *);
   (Simple (Arr (18100000000000000982648154874913881617072128 # 1) ((-676243631547351) # 70368744177664) (6439488490307585 # 33554432)), [Conc 28]) (* r202f 1311 2021 *);
   (Simple (Arr (18224161698145270636002452577574170132480 # 1) ((-5432375484892785) # 562949953421312) (6275174758866415 # 134217728)), [Conc 0; Conc 26]) (* r202b 1313 2022 *);
   (Simple (Arr (1259999999999999971519975392921913156784646732644352 # 1) ((-2980820003365847) # 281474976710656) (422035896 # 1)), [Conc 39]) (* r203f 1315 2023 *);
   (Simple (Arr (1699279773595427014012880679599339470848 # 1) ((-2521349504527071) # 281474976710656) (427144905499475 # 8388608)), [Conc 19; Conc 4]) (* r203b 1317 2024 *);
   (Simple (Arr (88000000000000002818572288 # 1) ((-8286623314361713) # 2251799813685248) (296223016 # 1)), [Conc 39]) (* r204f 1319 2025 *);
   (Simple (Arr (3576325508418905 # 1) ((-270353267545745) # 140737488355328) (8230085662016915 # 33554432)), [Conc 8; Conc 14]) (* r204b 1321 2026 *);
   (Simple (Arr (181000000 # 1) (3512807709348987 # 9007199254740992) (2997836 # 1)), [Conc 39; Conc 7]) (* r205f 1323 2027 *);
   (Simple (Arr (2605521316356719 # 1099511627776) (535263455969437 # 281474976710656) (4096820105169323 # 67108864)), [Conc 8; Conc 34]) (* r205b 1325 2028 *);
   (Simple (Arr (30900000 # 1) (2206763817411543 # 4503599627370496) ((-6825060374623027) # 4294967296)), [Conc 39; Conc 7]) (* r206f 1327 2029 *);
   (Simple (Arr (5786116157766411 # 68719476736) (685138521151285 # 562949953421312) (4049597911282005 # 67108864)), [Conc 8; Conc 33]) (* r206b 1329 2030 *);
   (Simple (Arr (10500000 # 1) (889460926405673 # 1125899906842624) (6441397818019021 # 2147483648)), [Conc 39; Conc 7]) (* r207f 1331 2031 *);
   (Simple (Arr (6941493746248831 # 1099511627776) (1117089811545049 # 562949953421312) (8065227393382719 # 134217728)), [Conc 8; Conc 35]) (* r207b 1333 2032 *);
   (Simple (Arr (19000 # 1) (8106479329266893 # 4503599627370496) (5725736866414593 # 268435456)), [Conc 39; Conc 0]) (* r208f 1335 2033 *);
   (Simple (Arr (6981506155370479 # 288230376151711744) (7667967760445291 # 2251799813685248) (4474916973669755 # 268435456)), [Conc 1; Conc 34]) (* r208b 1337 2034 *);
   (Simple (Arr (7091849999155199 # 274877906944) (3715469692580659 # 2251799813685248) (11828168 # 1)), [Conc 39; Conc 0]) (* r209f 1339 2035 *);
   (Simple (Arr (7707399321894669 # 1125899906842624) (173858257621049 # 70368744177664) (2966682749517523 # 268435456)), [Conc 1; Conc 33]) (* r209b 1341 2036 *);
   (Simple (Arr (15000 # 1) (3602879701896397 # 2251799813685248) (12710992 # 1)), [Conc 39; Conc 0]) (* r210f 1343 2037 *);
   (Simple (Arr (3955071975605519 # 4503599627370496) (3251569735329331 # 1125899906842624) (3807972306992737 # 536870912)), [Conc 1; Conc 35]) (* r210b 1345 2038 *);
   (Simple (Arr (94100 # 1) (7656119366529843 # 4503599627370496) (22840456 # 1)), [Conc 39; Conc 5]) (* r211f 1347 2039 *);
   (Simple (Arr (2535054909411677 # 36028797018963968) (3681948557088463 # 1125899906842624) (833130744495823 # 67108864)), [Conc 7; Conc 34]) (* r211b 1349 2040 *);
   (Simple (Arr (18800 # 1) (4165829655317709 # 2251799813685248) (7631616 # 1)), [Conc 39; Conc 5]) (* r212f 1351 2041 *);
   (Simple (Arr (6588221762412483 # 2251799813685248) (2967466770855327 # 1125899906842624) (4677344782239167 # 4294967296)), [Conc 7; Conc 33]) (* r212b 1353 2042 *);
   (Simple (Arr (8686141859430399 # 549755813888) (2 # 1) (18610432 # 1)), [Conc 39; Conc 5]) (* r213f 1355 2043 *);
   (Simple (Arr (2443500482360073 # 4503599627370496) (3662484365616559 # 1125899906842624) (7759038676644703 # 1073741824)), [Conc 7; Conc 35]) (* r213b 1356 2044 *);
   (Simple (Arr (1972576636788277 # 9007199254740992) (7160723407519089 # 2251799813685248) (5403397423366145 # 134217728)), [Conc 39; Conc 4]) (* r214f 1358 2045 *);
   (Simple (Arr (3502109287484961 # 36893488147419103232) (316313323383021 # 70368744177664) (5843312859130195 # 134217728)), [Conc 6; Conc 34]) (* r214b 1360 2046 *);
   (Simple (Arr (6557241057451441 # 9007199254740992) (1683220360729723 # 562949953421312) (33254432 # 1)), [Conc 39; Conc 4]) (* r215f 1362 2047 *);
   (Simple (Arr (4732379818584023 # 72057594037927936) (990931354892203 # 281474976710656) (2712225615251719 # 67108864)), [Conc 6; Conc 33]) (* r215b 1364 2048 *);
   (Simple (Arr (5224175567749775 # 36028797018963968) (1683220360729723 # 562949953421312) (32003416 # 1)), [Conc 39; Conc 4]) (* r216f 1366 2049 *);
   (Simple (Arr (3327753781804683 # 1152921504606846976) (4489858028303501 # 1125899906842624) (2303351887888647 # 67108864)), [Conc 6; Conc 35]) (* r216b 1368 2050 *);
   (Simple (Arr (2308094809027379 # 281474976710656) (2871044762448691 # 1125899906842624) (44978000 # 1)), [Conc 39; Conc 23]) (* r217f 1370 2051 *);
   (Simple (Arr (563590810615289 # 281474976710656) (1474756821313553 # 562949953421312) ((-2970736539726565) # 134217728)), [Conc 24; Conc 33]) (* r217b 1372 2052 *);
   (Simple (Arr (1709960483517235 # 70368744177664) (2871044762448691 # 1125899906842624) (4422339919872001 # 67108864)), [Conc 39; Conc 23]) (* r218f 1374 2053 *);
   (Simple (Arr (8217196748980137 # 288230376151711744) (119777512965211 # 35184372088832) ((-5472825245883195) # 1073741824)), [Conc 24; Conc 34]) (* r218b 1376 2054 *);
   (Simple (Arr (3800000000 # 1) (0 # 1) (6738803687424001 # 67108864)), [Conc 39; Conc 23]) (* r219f 1378 2055 *);
   (Simple (Arr (3435015792347759 # 16777216) (151150372228465 # 281474976710656) (1910093467811609 # 67108864)), [Conc 24; Conc 35]) (* r219b 1379 2056 *);
   (Simple (Arr (56000000000000003365338804649984 # 1) ((-6631550451303055) # 1125899906842624) (7096521849831425 # 67108864)), [Conc 35; Third 28]) (* r220f 1381 2057 *);
   (Simple (Arr (53852102855642683982793932800 # 1) ((-110366175743163) # 17592186044416) (2612495229481901 # 67108864)), [Conc 0; Conc 31; Third 28]) (* r220b 1383 2058 *);
   (Simple (Arr (53500000000000002564652004689313792 # 1) ((-7836263351624663) # 1125899906842624) (99579200 # 1)), [Conc 35; Third 29]) (* r221f 1385 2059 *);
   (Simple (Arr (42141518973059120175775744 # 1) ((-6681994870229069) # 1125899906842624) (3277925140033251 # 67108864)), [Conc 17; Conc 4; Third 29]) (* r221b 1387 2060 *);
   (Simple (Arr (40000000 # 1) (0 # 1) (4941789370777601 # 1073741824)), [Conc 35; Conc 21]) (* r222f 1389 2061 *);
   (Simple (Arr (7322642697629251 # 134217728) ((-111604310282469) # 281474976710656) (4779878976426889 # 33554432)), [Conc 23; Conc 31]) (* r222b 1390 2062 *);
   (Simple (Arr (131730289100587 # 281474976710656) (889460926405673 # 281474976710656) (6042460639723521 # 268435456)), [Conc 35; Conc 12]) (* r223f 1392 2063 *);
   (Simple (Arr (2396653739584371 # 8796093022208) (41301300289045 # 17592186044416) (5809053585462903 # 33554432)), [Conc 30; Conc 16]) (* r223b 1394 2064 *);
   (Simple (Arr (30000000000 # 1) (0 # 1) (0 # 1)), [Conc 35; Conc 0]) (* r224f 1396 2065 *);
   (Simple (Arr (2769669778482639 # 17179869184) (195116497918409 # 281474976710656) (4535313611204771 # 67108864)), [Conc 19; Conc 4]) (* r224b 1397 2066 *);
   (Simple (Arr (30000000000 # 1) (0 # 1) (0 # 1)), [Conc 35; Conc 0]) (* r225f 1399 2067 *);
   (Simple (Arr (326022859425681 # 67108864) (115383689141885 # 140737488355328) (1626342821538215 # 4194304)), [Conc 8; Conc 14]) (* r225b 1400 2068 *);
   (Simple (Arr (10000000000 # 1) (0 # 1) (0 # 1)), [Conc 35; Conc 7]) (* r226f 1402 2069 *);
   (Simple (Arr (6039638079106185 # 262144) ((-9036381453277) # 70368744177664) (7196949327380169 # 16777216)), [Conc 8; Conc 31]) (* r226b 1403 2070 *);
   (Simple (Arr (48200000000 # 1) (0 # 1) (20991128 # 1)), [Conc 33; Conc 21]) (* r227f 1405 2071 *);
   (Simple (Arr (1901384373463059 # 131072) (19928841901245 # 281474976710656) (2583666851645399 # 16777216)), [Conc 23; Conc 31]) (* r227b 1406 2072 *);
   (Simple (Arr (843000000000 # 1) ((-5404319552844595) # 4503599627370496) (0 # 1)), [Conc 33; Conc 21]) (* r228f 1408 2073 *);
   (Simple (Arr (8313625657804675 # 32768) ((-158920565075801) # 140737488355328) (4462988326211465 # 33554432)), [Conc 23; Conc 31]) (* r228b 1409 2074 *);
   (Simple (Arr (100000000000 # 1) (0 # 1) (0 # 1)), [Conc 33; Conc 5]) (* r229f 1411 2075 *);
   (Simple (Arr (761127927699001 # 262144) (27969772545555 # 70368744177664) (1491723299819139 # 4194304)), [Conc 7; Conc 31]) (* r229b 1412 2076 *);
   (Simple (Arr (30000000000 # 1) (0 # 1) (0 # 1)), [Conc 33; Conc 0]) (* r230f 1414 2077 *);
   (Simple (Arr (4604081603962111 # 4294967296) (90575132616859 # 70368744177664) (6424141419963555 # 16777216)), [Conc 8; Conc 14]) (* r230b 1415 2078 *);
   (Simple (Arr (30000000000 # 1) (0 # 1) (0 # 1)), [Conc 33; Conc 0]) (* r231f 1417 2079 *);
   (Simple (Arr (1222286385322717 # 34359738368) (653299300204165 # 562949953421312) (1052598536611883 # 16777216)), [Conc 19; Conc 4]) (* r231b 1418 2080 *);
   (Simple (Arr (40000000000 # 1) (0 # 1) (0 # 1)), [Conc 33; Conc 23]) (* r232f 1420 2081 *);
   (Simple (Arr (7160909045667017 # 4398046511104) (59485473406957 # 70368744177664) (674663059378309 # 8388608)), [Conc 7; Conc 7; Conc 31]) (* r232b 1421 2082 *);
   (Simple (Arr (5000000000 # 1) (0 # 1) (0 # 1)), [Conc 33; Conc 7]) (* r233f 1423 2083 *);
   (Simple (Arr (666340032096887 # 262144) (47693813185285 # 140737488355328) (1778929865297715 # 4194304)), [Conc 8; Conc 31]) (* r233b 1424 2084 *);
   (Simple (Arr (100000000000 # 1) (0 # 1) (7019587174400001 # 67108864)), [Conc 33; Third 30]) (* r234f 1426 2085 *);
   (Simple (Arr (355999609830257 # 16777216) (47123906237661 # 562949953421312) (4421282178586459 # 134217728)), [Conc 0; Conc 31; Third 30]) (* r234b 1427 2086 *);
   (Simple (Arr (1000000000 # 1) (0 # 1) ((-4941789370777601) # 1073741824)), [Conc 34; Conc 21]) (* r235f 1429 2087 *);
   (Simple (Arr (4466871271556694016 # 1) ((-439286775567693) # 281474976710656) (1171235094760985 # 8388608)), [Conc 47]) (* r235b 1430 2088 *);
   (Simple (Arr (180000000000 # 1) (0 # 1) (6879195430912001 # 67108864)), [Conc 47]) (* r236f 1432 2089 *);
   (Simple (Arr (8151134302070567 # 18889465931478580854784) (169513347074709 # 70368744177664) (2217739833677413 # 16777216)), [Conc 7; Conc 17; Conc 17]) (* r236b 1433 2090 *);
   (Simple (Arr (241000000 # 1) (0 # 1) ((-9978840) # 1)), [Conc 14; Conc 7]) (* r237f 1435 2091 *);
   (Simple (Arr (4968884221856903 # 64) ((-69633164150533) # 281474976710656) (6644988890694009 # 67108864)), [Conc 34]) (* r237b 1436 2092 *);
   (Simple (Arr (40000000000 # 1) (0 # 1) (0 # 1)), [Conc 16; Conc 23]) (* r238f 1438 2093 *);
   (Simple (Arr (4829241029487401 # 65536) (10369768716461 # 35184372088832) (7311035650719003 # 67108864)), [Conc 7; Conc 35]) (* r238b 1439 2094 *);
   (Simple (Arr (1698970000000000129625526937214277266702336 # 1) ((-4477473120032213) # 562949953421312) (6444444318852711 # 16777216)), [Conc 38]) (* r239f 1441 2095 *);
   (Simple (Arr (19677233953018061348387967467520 # 1) ((-1818584678943785) # 281474976710656) (8848836167467537 # 268435456)), [Conc 20; Conc 4]) (* r239b 1443 2096 *);
   (Simple (Arr (6710 # 1) (2 # 1) ((-1414879222211543) # 536870912)), [Conc 38; Conc 7]) (* r240f 1445 2097 *);
   (Simple (Arr (4013444074062373 # 17592186044416) (1192714671907759 # 562949953421312) (5810977806001401 # 67108864)), [Conc 8; Conc 36]) (* r240b 1446 2098 *);
   (Simple (Arr (29700 # 1) (2 # 1) (2265142161802527 # 134217728)), [Conc 38; Conc 0]) (* r241f 1448 2099 *);
   (Simple (Arr (6919117132122629 # 70368744177664) (2490840531512329 # 1125899906842624) (364008134967735 # 8388608)), [Conc 1; Conc 36]) (* r241b 1449 2100 *);
   (Simple (Arr (7724574080865875 # 288230376151711744) (4253537258060749 # 1125899906842624) (5408619996223897 # 134217728)), [Conc 38; Conc 4]) (* r242f 1451 2101 *);
   (Simple (Arr (2173747371830265 # 72057594037927936) (1041466349587689 # 281474976710656) (313529168001301 # 4194304)), [Conc 6; Conc 36]) (* r242b 1453 2102 *);
   (Simple (Arr (1094998728215399 # 590295810358705651712) (5956010507197481 # 1125899906842624) ((-7834982420578305) # 17179869184)), [Conc 38; Conc 5]) (* r243f 1455 2103 *);
   (Simple (Arr (4354619467909967 # 1208925819614629174706176) (6155605892574335 # 1125899906842624) (2723854522080523 # 134217728)), [Conc 7; Conc 36]) (* r243b 1457 2104 *);
   (Simple (Arr (20000000000 # 1) (0 # 1) (69036000 # 1)), [Conc 38; Conc 23]) (* r244f 1459 2105 *);
   (Simple (Arr (7986863139919233 # 131072) ((-1212975355281481) # 2251799813685248) (1960735009391171 # 67108864)), [Conc 24; Conc 36]) (* r244b 1460 2106 *);
   (Simple (Arr (41000000000 # 1) (0 # 1) (6304993200046081 # 33554432)), [Conc 38; Conc 21]) (* r245f 1462 2107 *);
   (Simple (Arr (6922701727076453 # 8388608) ((-168205607744961) # 1125899906842624) ((-7512616667759623) # 536870912)), [Conc 23; Conc 36]) (* r245b 1463 2108 *);
   (Simple (Arr (602000000 # 1) (0 # 1) (17045616 # 1)), [Conc 38; Conc 20]) (* r246f 1465 2109 *);
   (Simple (Arr (6312508087086293 # 268435456) ((-6856117579389) # 281474976710656) (5993338847304463 # 134217728)), [Conc 22; Conc 36]) (* r246b 1466 2110 *);
   (Simple (Arr (5000000000 # 1) (0 # 1) (74014960 # 1)), [Conc 38; Conc 48]) (* r247f 1468 2111 *);
   (Simple (Arr (1145011822245283 # 2048) ((-2394273643951095) # 2251799813685248) (970128882798939 # 33554432)), [Conc 50; Conc 36]) (* r247b 1469 2112 *);
   (Simple (Arr (12000000000000 # 1) (0 # 1) (107738000 # 1)), [Conc 36]) (* r248f 1471 2113 *);
   (Simple (Arr (8383704694084151 # 70368744177664) (273003402565509 # 140737488355328) (5120798159259057 # 67108864)), [Conc 4; Conc 17]) (* r248b 1472 2114 *);
   (Simple (Arr (24100000000 # 1) (0 # 1) (0 # 1)), [Conc 36; Conc 20]) (* r249f 1474 2115 *);
   (Simple (Arr (5415686938861969 # 262144) (31463731014897 # 70368744177664) (670505987599117 # 2097152)), [Conc 17; Conc 38]) (* r249b 1475 2116 *);
   (Simple (Arr (3090595244283003 # 562949953421312) (3152519739159347 # 1125899906842624) (24526608 # 1)), [Conc 36; Conc 17]) (* r250f 1477 2117 *);
   (Simple (Arr (5735996942469783 # 2251799813685248) (1715513858254115 # 562949953421312) (7055026772387783 # 134217728)), [Conc 15; Conc 38]) (* r250b 1479 2118 *);
   (Simple (Arr (9000000000 # 1) (0 # 1) (0 # 1)), [Conc 36; Conc 23]) (* r251f 1481 2119 *);
   (Simple (Arr (4325679378982673 # 8192) ((-20709076169663) # 70368744177664) (4176658402866887 # 33554432)), [Conc 7; Conc 43]) (* r251b 1482 2120 *);
   (Simple (Arr (17450000000000000 # 1) ((-5944751508129055) # 9007199254740992) (49036480 # 1)), [Conc 43]) (* r252f 1484 2121 *);
   (Simple (Arr (8926614582197355 # 2048) ((-820399612299077) # 1125899906842624) (5428377671124265 # 134217728)), [Conc 0; Conc 42]) (* r252b 1486 2122 *);
   (Simple (Arr (1392000000000000000 # 1) ((-4458563631096791) # 4503599627370496) (331121760 # 1)), [Conc 42]) (* r253f 1488 2123 *);
   (Simple (Arr (5304409333720087 # 134217728) (2867863409164837 # 4503599627370496) ((-3586393389956069) # 268435456)), [Conc 32; Conc 4]) (* r253b 1490 2124 *);
   (Simple (Arr (10000000000 # 1) (0 # 1) (6977469651353601 # 33554432)), [Conc 42; Conc 21]) (* r254f 1492 2125 *);
   (Simple (Arr (3113408858433185 # 134217728) ((-1246876615495045) # 1125899906842624) (6800032975286933 # 2147483648)), [Conc 23; Conc 41]) (* r254b 1493 2126 *);
   (Simple (Arr (23400 # 1) (7250795400066499 # 4503599627370496) ((-5031640086609921) # 34359738368)), [Conc 42; Conc 7]) (* r255f 1495 2127 *);
   (Simple (Arr (3226004429933221 # 35184372088832) (54228585774783 # 70368744177664) (5784635498066291 # 67108864)), [Conc 8; Conc 41]) (* r255b 1497 2128 *);
   (Simple (Arr (1220000000 # 1) (0 # 1) (71128000 # 1)), [Conc 42; Conc 23]) (* r256f 1499 2129 *);
   (Simple (Arr (3593440535180921 # 8388608) ((-3370317370782115) # 2251799813685248) (3815503928423511 # 134217728)), [Conc 24; Conc 41]) (* r256b 1500 2130 *);
   (Simple (Arr (235 # 1) (5 # 2) (9330320 # 1)), [Conc 42; Conc 5]) (* r257f 1502 2131 *);
   (Simple (Arr (1894735871931353 # 36028797018963968) (3871348289466367 # 2251799813685248) (3650610096819465 # 134217728)), [Conc 7; Conc 41]) (* r257b 1503 2132 *);
   (Simple (Arr (4550 # 1) (2 # 1) (20920000 # 1)), [Conc 42; Conc 0]) (* r258f 1505 2133 *);
   (Simple (Arr (7818258307018559 # 4503599627370496) (1412169523762013 # 1125899906842624) (1495018322526607 # 33554432)), [Conc 1; Conc 41]) (* r258b 1506 2134 *);
   (Simple (Arr (6963645887825355 # 9223372036854775808) (3895613677675479 # 1125899906842624) (22932504 # 1)), [Conc 42; Conc 4]) (* r259f 1508 2135 *);
   (Simple (Arr (903349083089603 # 9223372036854775808) (682317702553725 # 281474976710656) (3657756193356863 # 67108864)), [Conc 6; Conc 41]) (* r259b 1510 2136 *);
   (Simple (Arr (548000000 # 1) (0 # 1) (20920000 # 1)), [Conc 42; Conc 20]) (* r260f 1512 2137 *);
   (Simple (Arr (662232401015997 # 268435456) ((-276523869516971) # 281474976710656) (6126600287849217 # 134217728)), [Conc 22; Conc 41]) (* r260b 1513 2138 *);
   (Simple (Arr (7451000000000 # 1) ((-7926335344172073) # 4503599627370496) (71755600 # 1)), [Conc 41]) (* r261f 1515 2139 *);
   (Simple (Arr (307500731896387 # 4398046511104) (1026409984996865 # 562949953421312) ((-1145538243481115) # 1073741824)), [Conc 12; Conc 20]) (* r261b 1517 2140 *);
   (Simple (Arr (1514000000000 # 1) ((-8016407336719483) # 4503599627370496) (7760855580016641 # 134217728)), [Conc 41]) (* r262f 1519 2141 *);
   (Simple (Arr (488257809761775 # 549755813888) (203094504887085 # 140737488355328) (1147437945005979 # 8388608)), [Conc 30; Conc 4]) (* r262b 1521 2142 *);
   (Simple (Arr (2443000000000 # 1) ((-1) # 2) (110876000 # 1)), [Conc 32; Third 31]) (* r263f 1523 2143 *);
   (Simple (Arr (1385006741036083 # 16777216) (7644488931 # 4398046511104) (4190140335957077 # 33554432)), [Conc 30; Conc 0; Third 31]) (* r263b 1524 2144 *);
   (Simple (Arr (2000000000 # 1) (0 # 1) (0 # 1)), [Conc 36; Conc 21]) (* r264f 1526 2145 *);
   (Simple (Arr (76296982185439166464 # 1) ((-233351295523057) # 140737488355328) (5112421925602611 # 33554432)), [Conc 48]) (* r264b 1527 2146 *);
   (Simple (Arr (1000000000 # 1) (0 # 1) (48827280 # 1)), [Conc 48; Conc 17]) (* r265f 1529 2147 *);
   (Simple (Arr (1700069738629159 # 32768) ((-1837257689254433) # 2251799813685248) (1065750879771383 # 33554432)), [Conc 15; Conc 50]) (* r265b 1530 2148 *);
   (Simple (Arr (159699999999999967232 # 1) ((-9) # 2) (0 # 1)), [Conc 48; Conc 48]) (* r266f 1532 2149 *);
   (Simple (Arr (732147295299767 # 262144) ((-5735342993517443) # 2251799813685248) ((-428763827092843) # 134217728)), [Conc 43; Conc 43; Conc 21]) (* r266b 1533 2150 *);
   (Simple (Arr (68440000000000000000 # 1) ((-9) # 2) (0 # 1)), [Conc 48; Conc 48]) (* r267f 1535 2151 *);
   (Simple (Arr (6126342266961867 # 4194304) ((-349601443702175) # 140737488355328) (7091403183169681 # 16777216)), [Conc 44; Conc 42; Conc 21]) (* r267b 1536 2152 *);
   (Simple (Arr (21059999999999998951424 # 1) ((-2386907802506363) # 1125899906842624) (6153370117079041 # 33554432)), [Conc 50]) (* r268f 1538 2153 *);
   (Simple (Arr (6113566453851933 # 1048576) (2839816915118685 # 18014398509481984) ((-5571083255533867) # 4294967296)), [Conc 7; Conc 43]) (* r268b 1540 2154 *);
   (Simple (Arr (9722000000000000 # 1) ((-2476979795053773) # 2251799813685248) (86357760 # 1)), [Conc 43]) (* r269f 1542 2155 *);
   (Simple (Arr (3879228620313701 # 137438953472) (1099700586274157 # 1125899906842624) (2565096684896229 # 67108864)), [Conc 17; Conc 20]) (* r269b 1544 2156 *);
   (Simple (Arr (50000000 # 1) (0 # 1) (2092000 # 1)), [Conc 43; Conc 21]) (* r270f 1546 2157 *);
   (Simple (Arr (4755044800239839 # 268435456) ((-22959529663185) # 281474976710656) (103896256634541 # 524288)), [Conc 23; Conc 42]) (* r270b 1547 2158 *);
   (Simple (Arr (60000000000 # 1) (0 # 1) (89956000 # 1)), [Conc 48]) (* r271f 1549 2159 *);
   (Simple (Arr (2766176189489643 # 1024) ((-985636499300363) # 1125899906842624) (3101422164060281 # 67108864)), [Conc 49]) (* r271b 1550 2160 *);
   (Simple (Arr (15000000000000 # 1) (0 # 1) (85772000 # 1)), [Conc 49]) (* r272f 1552 2161 *);
   (Simple (Arr (3971870930925743 # 154742504910672534362390528) (649313277132921 # 140737488355328) (2874202719195305 # 16777216)), [Conc 17; Conc 17; Conc 7]) (* r272b 1553 2162 *);
   (Simple (Arr (700000000 # 1) (0 # 1) (0 # 1)), [Conc 49; Conc 21]) (* r273f 1555 2163 *);
   (Simple (Arr (30383017145938014208 # 1) ((-117897458891737) # 70368744177664) (1278963722480313 # 8388608)), [Conc 52]) (* r273b 1556 2164 *);
   (Simple (Arr (40000000000 # 1) (0 # 1) (5194494509056001 # 67108864)), [Conc 52]) (* r274f 1558 2165 *);
   (Simple (Arr (3849246404235933 # 1125899906842624) (204842249114659 # 140737488355328) (2084133834146877 # 8388608)), [Conc 7; Conc 51]) (* r274b 1559 2166 *);
   (Simple (Arr (30000000000000000 # 1) (0 # 1) (167360000 # 1)), [Conc 51]) (* r275f 1561 2167 *);
   (Simple (Arr (5339391029823221 # 68719476736) (2294534793270401 # 1125899906842624) ((-653866622853179) # 33554432)), [Conc 7; Conc 45]) (* r275b 1562 2168 *);
   (Simple (Arr (100000000000 # 1) (0 # 1) (58576000 # 1)), [Conc 45]) (* r276f 1564 2169 *);
   (Simple (Arr (4668089096862431 # 4194304) (296821797902133 # 562949953421312) (5768538512211153 # 67108864)), [Conc 46]) (* r276b 1565 2170 *);
   (Simple (Arr (21770000000000000 # 1) ((-6057341498813317) # 2251799813685248) (71964800 # 1)), [Conc 46]) (* r277f 1567 2171 *);
   (Simple (Arr (4139522395275315 # 34359738368) ((-1272357517050361) # 2251799813685248) (7463892098680881 # 536870912)), [Conc 12; Conc 40]) (* r277b 1569 2172 *);
   (Simple (Arr (5311000000000000 # 1) ((-5877197513718497) # 2251799813685248) (5843104363970561 # 67108864)), [Conc 46]) (* r278f 1571 2173 *);
   (Simple (Arr (5001846341066341 # 4294967296) ((-60571807779967) # 70368744177664) (4978921803651227 # 33554432)), [Conc 30; Conc 19]) (* r278b 1573 2174 *);
   (Simple (Arr (100000000000000 # 1) (0 # 1) (8367347911884801 # 134217728)), [Conc 40]) (* r279f 1575 2175 *);
   (Simple (Arr (1173749683403999 # 8192) ((-116674361783141) # 1125899906842624) (346975389794319 # 8388608)), [Conc 0; Conc 37]) (* r279b 1576 2176 *);
   (Simple (Arr (4500000000000 # 1) ((-4998995586381251) # 4503599627370496) (0 # 1)), [Conc 17; Conc 7]) (* r280f 1578 2177 *);
   (Simple (Arr (4331922070725497192448 # 1) ((-1320378439024359) # 562949953421312) (7141083855796967 # 67108864)), [Conc 40]) (* r280b 1579 2178 *);
   (Simple (Arr (23000000000 # 1) (0 # 1) (7019587174400001 # 33554432)), [Conc 37; Third 32]) (* r281f 1581 2179 *);
   (Simple (Arr (3801075344898135 # 72057594037927936) (272693564259025 # 140737488355328) (741692010208615 # 4194304)), [Conc 8; Conc 12; Third 32]) (* r281b 1582 2180 *);
   (Simple (Arr (15000000000000 # 1) (0 # 1) (238488000 # 1)), [Conc 37; Third 33]) (* r282f 1584 2181 *);
   (Simple (Arr (5027585134205463 # 268435456) (26459751610455 # 35184372088832) (2104561245476617 # 8388608)), [Conc 1; Conc 30; Third 33]) (* r282b 1585 2182 *);
   (Simple (Arr (4593000000000000000 # 1) ((-8286623314361713) # 18014398509481984) (453127200 # 1)), [Conc 37]) (* r283f 1587 2183 *);
   (Simple (Arr (5885833588754455 # 268435456) (1114603200565971 # 1125899906842624) ((-726787014259027) # 67108864)), [Conc 7; Conc 15]) (* r283b 1589 2184 *);
   (Simple (Arr (5761440929546239 # 2199023255552) (4638707616191611 # 2251799813685248) (8230325570240513 # 2147483648)), [Conc 37; Conc 7]) (* r284f 1591 2185 *);
   (Simple (Arr (4841721371263997 # 144115188075855872) (191290916995671 # 70368744177664) (2648686295093821 # 33554432)), [Conc 0; Conc 30; Conc 8]) (* r284b 1593 2186 *);
   (Simple (Arr (18500 # 1) (6800435437329449 # 4503599627370496) ((-4321819431534593) # 1073741824)), [Conc 37; Conc 7]) (* r285f 1595 2187 *);
   (Simple (Arr (3205902306252903 # 75557863725914323419136) (970414343350449 # 281474976710656) ((-4884431799867235) # 134217728)), [Conc 7; Conc 12; Conc 8]) (* r285b 1597 2188 *);
   (Simple (Arr (4240 # 1) (4728779608739021 # 2251799813685248) (20367712 # 1)), [Conc 37; Conc 0]) (* r286f 1599 2189 *);
   (Simple (Arr (762963751746925 # 144115188075855872) (401387731987655 # 140737488355328) (1099342610389773 # 33554432)), [Conc 0; Conc 30; Conc 1]) (* r286b 1601 2190 *);
   (Simple (Arr (60300000000 # 1) ((-3152519739159347) # 9007199254740992) (12501792 # 1)), [Conc 37; Conc 0]) (* r287f 1603 2191 *);
   (Simple (Arr (7762926746172873 # 576460752303423488) (473223683592841 # 281474976710656) ((-5541464836315697) # 67108864)), [Conc 7; Conc 12; Conc 1]) (* r287b 1605 2192 *);
   (Simple (Arr (3771848557197643 # 9671406556917033397649408) (6530219459687219 # 1125899906842624) (4941789370777601 # 536870912)), [Conc 37; Conc 4]) (* r288f 1607 2193 *);
   (Simple (Arr (1230077928445029 # 41538374868278621028243970633760768) (8490466583916057 # 1125899906842624) ((-5230059532984583) # 67108864)), [Conc 7; Conc 12; Conc 6]) (* r288b 1609 2194 *);
   (Simple (Arr (1000000000 # 1) (0 # 1) (49873280 # 1)), [Conc 37; Conc 23]) (* r289f 1611 2195 *);
   (Simple (Arr (7404744553685265 # 36028797018963968) (720715653149161 # 562949953421312) ((-7485193255199563) # 67108864)), [Conc 7; Conc 12; Conc 24]) (* r289b 1612 2196 *);
   (Simple (Arr (1770000000000000 # 1) ((-4278419646001971) # 2251799813685248) (12447400 # 1)), [Conc 37; Conc 5]) (* r290f 1614 2197 *);
   (Simple (Arr (4078718353532443 # 17592186044416) (1692258536177 # 17592186044416) ((-2966038179683159) # 33554432)), [Conc 7; Conc 7; Conc 12]) (* r290b 1616 2198 *)].

(** Production rates of the species as combinations of rates of reactions, src/equations/ideal_gas_mix/mechanism/Zhao2008Dme.cpp:2200-2663 *)
Definition zhao_production : list (list (Z * N)) :=
  [[((-1)%Z, 0%N); (1%Z, 1%N); (1%Z, 2%N); ((-1)%Z, 3%N); (1%Z, 4%N); ((-1)%Z, 5%N); (2%Z, 8%N); ((-2)%Z, 9%N); (2%Z, 10%N); ((-2)%Z, 11%N); (2%Z, 12%N); ((-2)%Z, 13%N); ((-1)%Z, 20%N); (1%Z, 21%N); ((-1)%Z, 22%N); (1%Z, 23%N); ((-1)%Z, 24%N); (1%Z, 25%N); ((-1)%Z, 26%N); (1%Z, 27%N); ((-1)%Z, 28%N); (1%Z, 29%N); ((-1)%Z, 40%N); (1%Z, 41%N); ((-1)%Z, 42%N); (1%Z, 43%N); (1%Z, 56%N); ((-1)%Z, 57%N); (1%Z, 58%N); ((-1)%Z, 59%N); ((-1)%Z, 62%N); (1%Z, 63%N); (1%Z, 68%N); ((-1)%Z, 69%N); (1%Z, 70%N); ((-1)%Z, 71%N); (1%Z, 78%N); ((-1)%Z, 79%N); ((-1)%Z, 82%N); (1%Z, 83%N); (1%Z, 94%N); ((-1)%Z, 95%N); ((-1)%Z, 104%N); (1%Z, 105%N); ((-1)%Z, 106%N); (1%Z, 107%N); (1%Z, 116%N); ((-1)%Z, 117%N); ((-1)%Z, 118%N); (1%Z, 119%N); ((-1)%Z, 120%N); (1%Z, 121%N); (1%Z, 140%N); ((-1)%Z, 141%N); ((-1)%Z, 142%N); (1%Z, 143%N); ((-1)%Z, 162%N); (1%Z, 163%N); ((-1)%Z, 164%N); (1%Z, 165%N); ((-1)%Z, 166%N); (1%Z, 167%N); ((-1)%Z, 168%N); (1%Z, 169%N); (1%Z, 186%N); ((-1)%Z, 187%N); (1%Z, 196%N); ((-1)%Z, 197%N); (1%Z, 198%N); ((-1)%Z, 199%N); ((-1)%Z, 200%N); (1%Z, 201%N); ((-1)%Z, 204%N); (1%Z, 205%N); ((-1)%Z, 216%N); (1%Z, 217%N); ((-1)%Z, 218%N); (1%Z, 219%N); (1%Z, 228%N); ((-1)%Z, 229%N); ((-1)%Z, 232%N); (1%Z, 233%N); ((-1)%Z, 234%N); (1%Z, 235%N); ((-1)%Z, 236%N); (1%Z, 237%N); ((-1)%Z, 250%N); (1%Z, 251%N); (1%Z, 252%N); ((-1)%Z, 253%N); ((-1)%Z, 266%N); (1%Z, 267%N); (1%Z, 268%N); ((-1)%Z, 269%N); (1%Z, 274%N); ((-1)%Z, 275%N); (1%Z, 276%N); ((-1)%Z, 277%N); ((-1)%Z, 284%N); (1%Z, 285%N); (1%Z, 286%N); ((-1)%Z, 287%N); (1%Z, 290%N); ((-1)%Z, 291%N); ((-1)%Z, 298%N); (1%Z, 299%N); (1%Z, 300%N); ((-1)%Z, 301%N); (1%Z, 304%N); ((-1)%Z, 305%N); ((-1)%Z, 306%N); (1%Z, 307%N); (1%Z, 308%N); ((-1)%Z, 309%N); (1%Z, 310%N); ((-1)%Z, 311%N); (1%Z, 312%N); ((-1)%Z, 313%N); (1%Z, 334%N); ((-1)%Z, 335%N); (1%Z, 336%N); ((-1)%Z, 337%N); (1%Z, 338%N); ((-1)%Z, 339%N); (1%Z, 340%N); ((-1)%Z, 341%N); ((-1)%Z, 358%N); (1%Z, 359%N); ((-1)%Z, 360%N); (1%Z, 361%N); ((-1)%Z, 374%N); (1%Z, 375%N); ((-1)%Z, 376%N); (1%Z, 377%N); ((-1)%Z, 384%N); (1%Z, 385%N); ((-1)%Z, 386%N); (1%Z, 387%N); (1%Z, 394%N); ((-1)%Z, 395%N); (1%Z, 402%N); ((-1)%Z, 403%N); ((-1)%Z, 414%N); (1%Z, 415%N); ((-1)%Z, 416%N); (1%Z, 417%N); ((-1)%Z, 418%N); (1%Z, 419%N); (1%Z, 438%N); ((-1)%Z, 439%N); ((-1)%Z, 446%N); (1%Z, 447%N); ((-1)%Z, 448%N); (1%Z, 449%N); ((-1)%Z, 458%N); (1%Z, 459%N); ((-1)%Z, 460%N); (1%Z, 461%N); (1%Z, 466%N); ((-1)%Z, 467%N); ((-1)%Z, 480%N); (1%Z, 481%N); (1%Z, 502%N); ((-1)%Z, 503%N); ((-1)%Z, 514%N); (1%Z, 515%N); (1%Z, 524%N); ((-1)%Z, 525%N); (1%Z, 556%N); ((-1)%Z, 557%N); (1%Z, 566%N); ((-1)%Z, 567%N); ((-1)%Z, 570%N); (1%Z, 570%N); ((-1)%Z, 571%N); (1%Z, 571%N); ((-1)%Z, 572%N); (1%Z, 573%N)] (* H 2200 *);
   [((-1)%Z, 2%N); (1%Z, 3%N); ((-1)%Z, 4%N); (1%Z, 5%N); ((-1)%Z, 8%N); (1%Z, 9%N); ((-1)%Z, 10%N); (1%Z, 11%N); ((-1)%Z, 12%N); (1%Z, 13%N); (1%Z, 26%N); ((-1)%Z, 27%N); (1%Z, 42%N); ((-1)%Z, 43%N); (1%Z, 62%N); ((-1)%Z, 63%N); (1%Z, 72%N); ((-1)%Z, 73%N); (1%Z, 80%N); ((-1)%Z, 81%N); (1%Z, 82%N); ((-1)%Z, 83%N); (1%Z, 106%N); ((-1)%Z, 107%N); (1%Z, 118%N); ((-1)%Z, 119%N); (1%Z, 166%N); ((-1)%Z, 167%N); (1%Z, 168%N); ((-1)%Z, 169%N); (1%Z, 204%N); ((-1)%Z, 205%N); (1%Z, 218%N); ((-1)%Z, 219%N); (1%Z, 230%N); ((-1)%Z, 231%N); (1%Z, 236%N); ((-1)%Z, 237%N); (1%Z, 250%N); ((-1)%Z, 251%N); ((-1)%Z, 304%N); (1%Z, 305%N); ((-1)%Z, 312%N); (1%Z, 313%N); (1%Z, 320%N); ((-1)%Z, 321%N); (1%Z, 332%N); ((-1)%Z, 333%N); ((-1)%Z, 338%N); (1%Z, 339%N); (1%Z, 358%N); ((-1)%Z, 359%N); (1%Z, 360%N); ((-1)%Z, 361%N); (1%Z, 376%N); ((-1)%Z, 377%N); (1%Z, 386%N); ((-1)%Z, 387%N); (1%Z, 414%N); ((-1)%Z, 415%N); (1%Z, 416%N); ((-1)%Z, 417%N); (1%Z, 418%N); ((-1)%Z, 419%N); (1%Z, 480%N); ((-1)%Z, 481%N); (1%Z, 514%N); ((-1)%Z, 515%N); (1%Z, 562%N); ((-1)%Z, 563%N); (1%Z, 570%N); ((-1)%Z, 571%N); (1%Z, 572%N); ((-1)%Z, 573%N)] (* H2 2231 *);
   [((-1)%Z, 188%N); (1%Z, 189%N); (1%Z, 192%N); ((-1)%Z, 193%N); ((-1)%Z, 196%N); (1%Z, 197%N); (1%Z, 272%N); ((-1)%Z, 273%N); ((-1)%Z, 292%N); (1%Z, 293%N); ((-1)%Z, 306%N); (1%Z, 307%N); ((-1)%Z, 308%N); (1%Z, 309%N); ((-1)%Z, 310%N); (1%Z, 311%N); ((-1)%Z, 312%N); (1%Z, 313%N); ((-1)%Z, 314%N); (1%Z, 315%N); ((-1)%Z, 316%N); (1%Z, 317%N); ((-1)%Z, 318%N); (1%Z, 319%N); ((-2)%Z, 320%N); (2%Z, 321%N); (1%Z, 322%N); ((-1)%Z, 323%N); (1%Z, 324%N); ((-1)%Z, 325%N); (1%Z, 326%N); ((-1)%Z, 327%N); (1%Z, 328%N); ((-1)%Z, 329%N); (1%Z, 330%N); ((-1)%Z, 331%N); (1%Z, 372%N); ((-1)%Z, 373%N)] (* CH2 2244 *);
   [((-1)%Z, 190%N); (1%Z, 191%N); (1%Z, 194%N); ((-1)%Z, 195%N); ((-1)%Z, 198%N); (1%Z, 199%N); (1%Z, 200%N); ((-1)%Z, 201%N); ((-1)%Z, 202%N); (1%Z, 203%N); (1%Z, 284%N); ((-1)%Z, 285%N); ((-1)%Z, 322%N); (1%Z, 323%N); ((-1)%Z, 324%N); (1%Z, 325%N); ((-1)%Z, 326%N); (1%Z, 327%N); ((-1)%Z, 328%N); (1%Z, 329%N); ((-1)%Z, 330%N); (1%Z, 331%N); ((-1)%Z, 332%N); (1%Z, 333%N); ((-1)%Z, 334%N); (1%Z, 335%N); ((-1)%Z, 336%N); (1%Z, 337%N); ((-1)%Z, 338%N); (1%Z, 339%N); ((-1)%Z, 340%N); (1%Z, 341%N); ((-1)%Z, 342%N); (1%Z, 343%N); ((-1)%Z, 344%N); (1%Z, 345%N)] (* CH2S 2252 *);
   [((-1)%Z, 74%N); (1%Z, 75%N); ((-1)%Z, 92%N); (1%Z, 93%N); ((-1)%Z, 94%N); (1%Z, 95%N); ((-1)%Z, 96%N); (1%Z, 97%N); ((-1)%Z, 98%N); (1%Z, 99%N); ((-1)%Z, 100%N); (1%Z, 101%N); ((-2)%Z, 102%N); (2%Z, 103%N); ((-1)%Z, 104%N); (1%Z, 105%N); (1%Z, 106%N); ((-1)%Z, 107%N); (1%Z, 108%N); ((-1)%Z, 109%N); (1%Z, 110%N); ((-1)%Z, 111%N); ((-1)%Z, 112%N); (1%Z, 113%N); (1%Z, 114%N); ((-1)%Z, 115%N); (1%Z, 120%N); ((-1)%Z, 121%N); (1%Z, 142%N); ((-1)%Z, 143%N); (1%Z, 154%N); ((-1)%Z, 155%N); ((-1)%Z, 160%N); (1%Z, 161%N); ((-1)%Z, 182%N); (1%Z, 183%N); ((-2)%Z, 186%N); (2%Z, 187%N); (2%Z, 188%N); ((-2)%Z, 189%N); (2%Z, 190%N); ((-2)%Z, 191%N); ((-1)%Z, 192%N); (1%Z, 193%N); ((-1)%Z, 194%N); (1%Z, 195%N); ((-1)%Z, 196%N); (1%Z, 197%N); ((-1)%Z, 198%N); (1%Z, 199%N); ((-1)%Z, 214%N); (1%Z, 215%N); (1%Z, 220%N); ((-1)%Z, 221%N); ((-1)%Z, 240%N); (1%Z, 241%N); (1%Z, 242%N); ((-1)%Z, 243%N); ((-1)%Z, 256%N); (1%Z, 257%N); (1%Z, 280%N); ((-1)%Z, 281%N); ((-1)%Z, 296%N); (1%Z, 297%N); (1%Z, 306%N); ((-1)%Z, 307%N); (1%Z, 312%N); ((-1)%Z, 313%N); (1%Z, 338%N); ((-1)%Z, 339%N); (1%Z, 346%N); ((-1)%Z, 347%N); (1%Z, 348%N); ((-1)%Z, 349%N); ((-1)%Z, 362%N); (1%Z, 363%N); ((-1)%Z, 364%N); (1%Z, 365%N); (1%Z, 374%N); ((-1)%Z, 375%N); (1%Z, 384%N); ((-1)%Z, 385%N); ((-1)%Z, 394%N); (1%Z, 395%N); (1%Z, 400%N); ((-1)%Z, 401%N); (1%Z, 404%N); ((-1)%Z, 405%N); ((-1)%Z, 426%N); (1%Z, 427%N); ((-1)%Z, 428%N); (1%Z, 429%N); ((-1)%Z, 430%N); (1%Z, 431%N); (1%Z, 440%N); ((-1)%Z, 441%N); (1%Z, 446%N); ((-1)%Z, 447%N); (1%Z, 460%N); ((-1)%Z, 461%N); (1%Z, 476%N); ((-1)%Z, 477%N); ((-1)%Z, 482%N); (1%Z, 483%N); (1%Z, 494%N); ((-1)%Z, 495%N); (1%Z, 504%N); ((-1)%Z, 505%N); ((-1)%Z, 516%N); (1%Z, 517%N); (1%Z, 522%N); ((-1)%Z, 523%N); ((-1)%Z, 574%N); (1%Z, 575%N)] (* CH3 2260 *);
   [(1%Z, 0%N); ((-1)%Z, 1%N); ((-1)%Z, 2%N); (1%Z, 3%N); ((-1)%Z, 6%N); (1%Z, 7%N); ((-2)%Z, 14%N); (2%Z, 15%N); ((-2)%Z, 16%N); (2%Z, 17%N); ((-2)%Z, 18%N); (2%Z, 19%N); ((-1)%Z, 20%N); (1%Z, 21%N); ((-1)%Z, 30%N); (1%Z, 31%N); ((-1)%Z, 44%N); (1%Z, 45%N); ((-1)%Z, 50%N); (1%Z, 51%N); (1%Z, 52%N); ((-1)%Z, 53%N); ((-1)%Z, 64%N); (1%Z, 65%N); ((-1)%Z, 68%N); (1%Z, 69%N); ((-1)%Z, 84%N); (1%Z, 85%N); ((-1)%Z, 94%N); (1%Z, 95%N); (1%Z, 96%N); ((-1)%Z, 97%N); ((-1)%Z, 108%N); (1%Z, 109%N); ((-1)%Z, 122%N); (1%Z, 123%N); ((-1)%Z, 144%N); (1%Z, 145%N); ((-1)%Z, 170%N); (1%Z, 171%N); ((-1)%Z, 206%N); (1%Z, 207%N); ((-1)%Z, 220%N); (1%Z, 221%N); ((-1)%Z, 228%N); (1%Z, 229%N); ((-1)%Z, 242%N); (1%Z, 243%N); ((-1)%Z, 246%N); (1%Z, 247%N); ((-1)%Z, 252%N); (1%Z, 253%N); (1%Z, 264%N); ((-1)%Z, 265%N); ((-1)%Z, 268%N); (1%Z, 269%N); ((-1)%Z, 270%N); (1%Z, 271%N); ((-1)%Z, 272%N); (1%Z, 273%N); ((-1)%Z, 286%N); (1%Z, 287%N); ((-1)%Z, 308%N); (1%Z, 309%N); ((-1)%Z, 332%N); (1%Z, 333%N); ((-1)%Z, 334%N); (1%Z, 335%N); ((-1)%Z, 354%N); (1%Z, 355%N); ((-1)%Z, 356%N); (1%Z, 357%N); ((-1)%Z, 372%N); (1%Z, 373%N); ((-1)%Z, 378%N); (1%Z, 379%N); ((-1)%Z, 388%N); (1%Z, 389%N); ((-1)%Z, 420%N); (1%Z, 421%N); ((-1)%Z, 422%N); (1%Z, 423%N); ((-1)%Z, 424%N); (1%Z, 425%N); ((-1)%Z, 456%N); (1%Z, 457%N); ((-1)%Z, 484%N); (1%Z, 485%N); ((-1)%Z, 512%N); (1%Z, 513%N); ((-1)%Z, 578%N); (1%Z, 579%N)] (* O 2282 *);
   [(1%Z, 74%N); ((-1)%Z, 75%N); (1%Z, 92%N); ((-1)%Z, 93%N); (1%Z, 104%N); ((-1)%Z, 105%N); ((-1)%Z, 106%N); (1%Z, 107%N); ((-1)%Z, 108%N); (1%Z, 109%N); ((-1)%Z, 110%N); (1%Z, 111%N); (1%Z, 112%N); ((-1)%Z, 113%N); ((-1)%Z, 114%N); (1%Z, 115%N); (1%Z, 182%N); ((-1)%Z, 183%N); ((-1)%Z, 188%N); (1%Z, 189%N); ((-1)%Z, 190%N); (1%Z, 191%N); (1%Z, 214%N); ((-1)%Z, 215%N); (1%Z, 240%N); ((-1)%Z, 241%N); (1%Z, 256%N); ((-1)%Z, 257%N); (1%Z, 362%N); ((-1)%Z, 363%N); (1%Z, 364%N); ((-1)%Z, 365%N); (1%Z, 426%N); ((-1)%Z, 427%N); (1%Z, 428%N); ((-1)%Z, 429%N); (1%Z, 430%N); ((-1)%Z, 431%N); (1%Z, 482%N); ((-1)%Z, 483%N); (1%Z, 516%N); ((-1)%Z, 517%N); (1%Z, 574%N); ((-1)%Z, 575%N)] (* CH4 2299 *);
   [(1%Z, 0%N); ((-1)%Z, 1%N); (1%Z, 2%N); ((-1)%Z, 3%N); ((-1)%Z, 4%N); (1%Z, 5%N); (2%Z, 6%N); ((-2)%Z, 7%N); (1%Z, 20%N); ((-1)%Z, 21%N); ((-1)%Z, 22%N); (1%Z, 23%N); (2%Z, 28%N); ((-2)%Z, 29%N); (1%Z, 30%N); ((-1)%Z, 31%N); ((-1)%Z, 32%N); (1%Z, 33%N); (2%Z, 38%N); ((-2)%Z, 39%N); (1%Z, 40%N); ((-1)%Z, 41%N); (1%Z, 44%N); ((-1)%Z, 45%N); ((-1)%Z, 46%N); (1%Z, 47%N); ((-1)%Z, 48%N); (1%Z, 49%N); (1%Z, 54%N); ((-1)%Z, 55%N); ((-1)%Z, 56%N); (1%Z, 57%N); (1%Z, 64%N); ((-1)%Z, 65%N); ((-1)%Z, 66%N); (1%Z, 67%N); (1%Z, 70%N); ((-1)%Z, 71%N); (1%Z, 84%N); ((-1)%Z, 85%N); ((-1)%Z, 86%N); (1%Z, 87%N); (1%Z, 98%N); ((-1)%Z, 99%N); (1%Z, 100%N); ((-1)%Z, 101%N); (1%Z, 108%N); ((-1)%Z, 109%N); ((-1)%Z, 110%N); (1%Z, 111%N); (1%Z, 120%N); ((-1)%Z, 121%N); (1%Z, 122%N); ((-1)%Z, 123%N); ((-1)%Z, 124%N); (1%Z, 125%N); (1%Z, 142%N); ((-1)%Z, 143%N); (1%Z, 144%N); ((-1)%Z, 145%N); ((-1)%Z, 146%N); (1%Z, 147%N); ((-1)%Z, 160%N); (1%Z, 161%N); (1%Z, 170%N); ((-1)%Z, 171%N); ((-1)%Z, 172%N); (1%Z, 173%N); ((-1)%Z, 174%N); (1%Z, 175%N); ((-1)%Z, 192%N); (1%Z, 193%N); ((-1)%Z, 194%N); (1%Z, 195%N); (1%Z, 206%N); ((-1)%Z, 207%N); ((-1)%Z, 208%N); (1%Z, 209%N); ((-1)%Z, 238%N); (1%Z, 239%N); ((-1)%Z, 244%N); (1%Z, 245%N); (1%Z, 246%N); ((-1)%Z, 247%N); (1%Z, 270%N); ((-1)%Z, 271%N); ((-1)%Z, 274%N); (1%Z, 275%N); ((-1)%Z, 276%N); (1%Z, 277%N); ((-1)%Z, 278%N); (1%Z, 279%N); ((-1)%Z, 280%N); (1%Z, 281%N); (1%Z, 282%N); ((-1)%Z, 283%N); (1%Z, 288%N); ((-1)%Z, 289%N); ((-1)%Z, 290%N); (1%Z, 291%N); ((-1)%Z, 300%N); (1%Z, 301%N); ((-1)%Z, 310%N); (1%Z, 311%N); (1%Z, 314%N); ((-1)%Z, 315%N); (1%Z, 316%N); ((-1)%Z, 317%N); ((-1)%Z, 336%N); (1%Z, 337%N); (1%Z, 340%N); ((-1)%Z, 341%N); ((-1)%Z, 350%N); (1%Z, 351%N); ((-1)%Z, 352%N); (1%Z, 353%N); (1%Z, 354%N); ((-1)%Z, 355%N); (1%Z, 356%N); ((-1)%Z, 357%N); (1%Z, 378%N); ((-1)%Z, 379%N); ((-1)%Z, 380%N); (1%Z, 381%N); ((-1)%Z, 382%N); (1%Z, 383%N); ((-1)%Z, 390%N); (1%Z, 391%N); (1%Z, 392%N); ((-1)%Z, 393%N); (1%Z, 396%N); ((-1)%Z, 397%N); ((-1)%Z, 408%N); (1%Z, 409%N); ((-1)%Z, 410%N); (1%Z, 411%N); ((-1)%Z, 412%N); (1%Z, 413%N); (1%Z, 420%N); ((-1)%Z, 421%N); (1%Z, 422%N); ((-1)%Z, 423%N); (1%Z, 424%N); ((-1)%Z, 425%N); ((-1)%Z, 450%N); (1%Z, 451%N); (1%Z, 456%N); ((-1)%Z, 457%N); (2%Z, 462%N); ((-2)%Z, 463%N); ((-1)%Z, 464%N); (1%Z, 465%N); (1%Z, 470%N); ((-1)%Z, 471%N); ((-1)%Z, 472%N); (1%Z, 473%N); (1%Z, 474%N); ((-1)%Z, 475%N); ((-1)%Z, 478%N); (1%Z, 479%N); (1%Z, 484%N); ((-1)%Z, 485%N); (1%Z, 500%N); ((-1)%Z, 501%N); ((-1)%Z, 508%N); (1%Z, 509%N); (1%Z, 512%N); ((-1)%Z, 513%N); (1%Z, 534%N); ((-1)%Z, 535%N); (1%Z, 542%N); ((-1)%Z, 543%N); (1%Z, 546%N); ((-1)%Z, 547%N); (1%Z, 548%N); ((-1)%Z, 549%N); ((-1)%Z, 558%N); (1%Z, 559%N); (1%Z, 564%N); ((-1)%Z, 565%N); ((-1)%Z, 566%N); (1%Z, 567%N); ((-1)%Z, 568%N); (1%Z, 568%N); ((-1)%Z, 569%N); (1%Z, 569%N); (1%Z, 572%N); ((-1)%Z, 573%N); (1%Z, 574%N); ((-1)%Z, 575%N); (1%Z, 576%N); ((-1)%Z, 577%N); (2%Z, 578%N); ((-2)%Z, 579%N)] (* OH 2308 *);
   [(1%Z, 4%N); ((-1)%Z, 5%N); ((-1)%Z, 6%N); (1%Z, 7%N); (1%Z, 22%N); ((-1)%Z, 23%N); (1%Z, 32%N); ((-1)%Z, 33%N); (1%Z, 40%N); ((-1)%Z, 41%N); (1%Z, 46%N); ((-1)%Z, 47%N); (1%Z, 48%N); ((-1)%Z, 49%N); (1%Z, 66%N); ((-1)%Z, 67%N); (1%Z, 86%N); ((-1)%Z, 87%N); (1%Z, 110%N); ((-1)%Z, 111%N); (1%Z, 124%N); ((-1)%Z, 125%N); (1%Z, 146%N); ((-1)%Z, 147%N); (1%Z, 172%N); ((-1)%Z, 173%N); (1%Z, 174%N); ((-1)%Z, 175%N); (1%Z, 192%N); ((-1)%Z, 193%N); (1%Z, 194%N); ((-1)%Z, 195%N); (1%Z, 200%N); ((-1)%Z, 201%N); ((-1)%Z, 202%N); (1%Z, 203%N); (1%Z, 208%N); ((-1)%Z, 209%N); (1%Z, 238%N); ((-1)%Z, 239%N); (1%Z, 244%N); ((-1)%Z, 245%N); (1%Z, 278%N); ((-1)%Z, 279%N); ((-1)%Z, 324%N); (1%Z, 324%N); ((-1)%Z, 325%N); (1%Z, 325%N); (1%Z, 342%N); ((-1)%Z, 343%N); (1%Z, 350%N); ((-1)%Z, 351%N); (1%Z, 352%N); ((-1)%Z, 353%N); (1%Z, 380%N); ((-1)%Z, 381%N); (1%Z, 390%N); ((-1)%Z, 391%N); (1%Z, 406%N); ((-1)%Z, 407%N); (1%Z, 408%N); ((-1)%Z, 409%N); (1%Z, 410%N); ((-1)%Z, 411%N); (1%Z, 412%N); ((-1)%Z, 413%N); (1%Z, 448%N); ((-1)%Z, 449%N); (1%Z, 450%N); ((-1)%Z, 451%N); (1%Z, 458%N); ((-1)%Z, 459%N); (1%Z, 464%N); ((-1)%Z, 465%N); (1%Z, 478%N); ((-1)%Z, 479%N); (1%Z, 508%N); ((-1)%Z, 509%N); (1%Z, 560%N); ((-1)%Z, 561%N); (1%Z, 566%N); ((-1)%Z, 567%N); (1%Z, 568%N); ((-1)%Z, 569%N)] (* H2O 2342 *);
   [(1%Z, 270%N); ((-1)%Z, 271%N); (1%Z, 278%N); ((-1)%Z, 279%N); ((-1)%Z, 298%N); (1%Z, 299%N); ((-1)%Z, 300%N); (1%Z, 301%N); ((-1)%Z, 302%N); (1%Z, 303%N); ((-1)%Z, 304%N); (1%Z, 305%N)] (* C2H 2357 *);
   [(1%Z, 230%N); ((-1)%Z, 231%N); (1%Z, 244%N); ((-1)%Z, 245%N); (1%Z, 250%N); ((-1)%Z, 251%N); (1%Z, 256%N); ((-1)%Z, 257%N); (1%Z, 258%N); ((-1)%Z, 259%N); (1%Z, 262%N); ((-1)%Z, 263%N); ((-1)%Z, 266%N); (1%Z, 267%N); ((-1)%Z, 268%N); (1%Z, 269%N); ((-1)%Z, 270%N); (1%Z, 271%N); ((-1)%Z, 272%N); (1%Z, 273%N); ((-1)%Z, 274%N); (1%Z, 275%N); ((-1)%Z, 276%N); (1%Z, 277%N); ((-1)%Z, 278%N); (1%Z, 279%N); ((-1)%Z, 280%N); (1%Z, 281%N); ((-1)%Z, 282%N); (1%Z, 283%N); (1%Z, 294%N); ((-1)%Z, 295%N); (1%Z, 298%N); ((-1)%Z, 299%N); (1%Z, 304%N); ((-1)%Z, 305%N); (1%Z, 320%N); ((-1)%Z, 321%N)] (* C2H2 2360 *);
   [((-1)%Z, 234%N); (1%Z, 235%N); (1%Z, 236%N); ((-1)%Z, 237%N); (1%Z, 238%N); ((-1)%Z, 239%N); (1%Z, 240%N); ((-1)%Z, 241%N); ((-1)%Z, 244%N); (1%Z, 245%N); (1%Z, 246%N); ((-1)%Z, 247%N); (1%Z, 248%N); ((-1)%Z, 249%N); ((-1)%Z, 250%N); (1%Z, 251%N); ((-1)%Z, 252%N); (1%Z, 253%N); ((-1)%Z, 254%N); (1%Z, 255%N); ((-1)%Z, 256%N); (1%Z, 257%N); ((-2)%Z, 258%N); (2%Z, 259%N); ((-1)%Z, 260%N); (1%Z, 261%N); ((-1)%Z, 262%N); (1%Z, 263%N); ((-1)%Z, 264%N); (1%Z, 265%N); (1%Z, 266%N); ((-1)%Z, 267%N); (1%Z, 292%N); ((-1)%Z, 293%N)] (* C2H3 2369 *);
   [((-1)%Z, 50%N); (1%Z, 51%N); ((-1)%Z, 52%N); (1%Z, 53%N); ((-1)%Z, 54%N); (1%Z, 55%N); ((-1)%Z, 56%N); (1%Z, 57%N); (1%Z, 58%N); ((-1)%Z, 59%N); (1%Z, 60%N); ((-1)%Z, 61%N); (1%Z, 62%N); ((-1)%Z, 63%N); (1%Z, 64%N); ((-1)%Z, 65%N); (1%Z, 66%N); ((-1)%Z, 67%N); (2%Z, 72%N); ((-2)%Z, 73%N); (1%Z, 74%N); ((-1)%Z, 75%N); (1%Z, 76%N); ((-1)%Z, 77%N); (1%Z, 80%N); ((-1)%Z, 81%N); (1%Z, 132%N); ((-1)%Z, 133%N); ((-1)%Z, 154%N); (1%Z, 155%N); (1%Z, 156%N); ((-1)%Z, 157%N); (1%Z, 226%N); ((-1)%Z, 227%N); (1%Z, 272%N); ((-1)%Z, 273%N); (1%Z, 280%N); ((-1)%Z, 281%N); (1%Z, 284%N); ((-1)%Z, 285%N); (2%Z, 286%N); ((-2)%Z, 287%N); (2%Z, 288%N); ((-2)%Z, 289%N); (1%Z, 290%N); ((-1)%Z, 291%N); (1%Z, 292%N); ((-1)%Z, 293%N); (2%Z, 294%N); ((-2)%Z, 295%N); (1%Z, 296%N); ((-1)%Z, 297%N); (1%Z, 302%N); ((-1)%Z, 303%N); ((-1)%Z, 318%N); (1%Z, 319%N); ((-1)%Z, 326%N); (1%Z, 326%N); ((-1)%Z, 327%N); (1%Z, 327%N); (1%Z, 332%N); ((-1)%Z, 333%N); (1%Z, 340%N); ((-1)%Z, 341%N); (1%Z, 342%N); ((-1)%Z, 343%N); (1%Z, 344%N); ((-1)%Z, 345%N); (1%Z, 348%N); ((-1)%Z, 349%N); (1%Z, 374%N); ((-1)%Z, 375%N); (1%Z, 382%N); ((-1)%Z, 383%N); (1%Z, 392%N); ((-1)%Z, 393%N); (1%Z, 394%N); ((-1)%Z, 395%N); (1%Z, 400%N); ((-1)%Z, 401%N); ((-1)%Z, 444%N); (1%Z, 445%N); (1%Z, 520%N); ((-1)%Z, 521%N); (1%Z, 552%N); ((-1)%Z, 553%N); (1%Z, 560%N); ((-1)%Z, 561%N); (1%Z, 568%N); ((-1)%Z, 569%N); (1%Z, 572%N); ((-1)%Z, 573%N); (1%Z, 574%N); ((-1)%Z, 575%N); (1%Z, 576%N); ((-1)%Z, 577%N); (1%Z, 578%N); ((-1)%Z, 579%N)] (* CO 2377 *);
   [] (* N2 2396 *);
   [(1%Z, 196%N); ((-1)%Z, 197%N); (1%Z, 198%N); ((-1)%Z, 199%N); (1%Z, 218%N); ((-1)%Z, 219%N); (1%Z, 222%N); ((-1)%Z, 223%N); (1%Z, 224%N); ((-1)%Z, 225%N); ((-1)%Z, 230%N); (1%Z, 231%N); ((-1)%Z, 232%N); (1%Z, 233%N); (1%Z, 234%N); ((-1)%Z, 235%N); ((-1)%Z, 236%N); (1%Z, 237%N); ((-1)%Z, 238%N); (1%Z, 239%N); ((-1)%Z, 240%N); (1%Z, 241%N); ((-1)%Z, 242%N); (1%Z, 243%N); ((-1)%Z, 246%N); (1%Z, 247%N); ((-1)%Z, 248%N); (1%Z, 249%N); (1%Z, 254%N); ((-1)%Z, 255%N); (1%Z, 258%N); ((-1)%Z, 259%N); (1%Z, 296%N); ((-1)%Z, 297%N); (1%Z, 406%N); ((-1)%Z, 407%N); (1%Z, 448%N); ((-1)%Z, 449%N); (1%Z, 458%N); ((-1)%Z, 459%N); ((-1)%Z, 472%N); (1%Z, 473%N)] (* C2H4 2398 *);
   [((-1)%Z, 58%N); (1%Z, 59%N); ((-1)%Z, 60%N); (1%Z, 61%N); ((-1)%Z, 62%N); (1%Z, 63%N); ((-1)%Z, 64%N); (1%Z, 65%N); ((-1)%Z, 66%N); (1%Z, 67%N); ((-1)%Z, 68%N); (1%Z, 69%N); ((-1)%Z, 70%N); (1%Z, 71%N); ((-2)%Z, 72%N); (2%Z, 73%N); ((-1)%Z, 74%N); (1%Z, 75%N); ((-2)%Z, 76%N); (2%Z, 77%N); (1%Z, 78%N); ((-1)%Z, 79%N); (1%Z, 82%N); ((-1)%Z, 83%N); (1%Z, 84%N); ((-1)%Z, 85%N); (1%Z, 86%N); ((-1)%Z, 87%N); (1%Z, 88%N); ((-1)%Z, 89%N); (1%Z, 90%N); ((-1)%Z, 91%N); (1%Z, 92%N); ((-1)%Z, 93%N); ((-1)%Z, 132%N); (1%Z, 133%N); ((-1)%Z, 134%N); (1%Z, 135%N); ((-1)%Z, 156%N); (1%Z, 157%N); ((-1)%Z, 178%N); (1%Z, 179%N); ((-1)%Z, 226%N); (1%Z, 227%N); (1%Z, 242%N); ((-1)%Z, 243%N); (1%Z, 260%N); ((-1)%Z, 261%N); (1%Z, 290%N); ((-1)%Z, 291%N); (1%Z, 302%N); ((-1)%Z, 303%N); (1%Z, 308%N); ((-1)%Z, 309%N); (1%Z, 314%N); ((-1)%Z, 315%N); (1%Z, 334%N); ((-1)%Z, 335%N); (1%Z, 346%N); ((-1)%Z, 347%N); (1%Z, 384%N); ((-1)%Z, 385%N); (1%Z, 388%N); ((-1)%Z, 389%N); (1%Z, 396%N); ((-1)%Z, 397%N); (1%Z, 498%N); ((-1)%Z, 499%N); (1%Z, 528%N); ((-1)%Z, 529%N); (1%Z, 564%N); ((-1)%Z, 565%N)] (* HCO 2407 *);
   [(1%Z, 186%N); ((-1)%Z, 187%N); (1%Z, 204%N); ((-1)%Z, 205%N); (1%Z, 206%N); ((-1)%Z, 207%N); (1%Z, 208%N); ((-1)%Z, 209%N); (1%Z, 210%N); ((-1)%Z, 211%N); (1%Z, 212%N); ((-1)%Z, 213%N); (1%Z, 214%N); ((-1)%Z, 215%N); ((-1)%Z, 216%N); (1%Z, 217%N); ((-1)%Z, 218%N); (1%Z, 219%N); ((-1)%Z, 220%N); (1%Z, 221%N); ((-1)%Z, 222%N); (1%Z, 223%N); ((-2)%Z, 224%N); (2%Z, 225%N); ((-1)%Z, 226%N); (1%Z, 227%N); ((-1)%Z, 228%N); (1%Z, 229%N); (1%Z, 232%N); ((-1)%Z, 233%N); (1%Z, 394%N); ((-1)%Z, 395%N); (1%Z, 444%N); ((-1)%Z, 445%N); ((-1)%Z, 474%N); (1%Z, 475%N)] (* C2H5 2421 *);
   [(1%Z, 76%N); ((-1)%Z, 77%N); ((-1)%Z, 78%N); (1%Z, 79%N); ((-1)%Z, 80%N); (1%Z, 81%N); ((-1)%Z, 82%N); (1%Z, 83%N); ((-1)%Z, 84%N); (1%Z, 85%N); ((-1)%Z, 86%N); (1%Z, 87%N); ((-1)%Z, 88%N); (1%Z, 89%N); ((-1)%Z, 90%N); (1%Z, 91%N); ((-1)%Z, 92%N); (1%Z, 93%N); (1%Z, 94%N); ((-1)%Z, 95%N); (1%Z, 98%N); ((-1)%Z, 99%N); (1%Z, 116%N); ((-1)%Z, 117%N); (1%Z, 118%N); ((-1)%Z, 119%N); (1%Z, 122%N); ((-1)%Z, 123%N); (1%Z, 124%N); ((-1)%Z, 125%N); (1%Z, 126%N); ((-1)%Z, 127%N); (1%Z, 128%N); ((-1)%Z, 129%N); (1%Z, 130%N); ((-1)%Z, 131%N); (2%Z, 134%N); ((-2)%Z, 135%N); (1%Z, 136%N); ((-1)%Z, 137%N); (1%Z, 138%N); ((-1)%Z, 139%N); (1%Z, 140%N); ((-1)%Z, 141%N); (1%Z, 144%N); ((-1)%Z, 145%N); (1%Z, 146%N); ((-1)%Z, 147%N); (1%Z, 148%N); ((-1)%Z, 149%N); (1%Z, 150%N); ((-1)%Z, 151%N); (1%Z, 152%N); ((-1)%Z, 153%N); (1%Z, 158%N); ((-1)%Z, 159%N); (1%Z, 178%N); ((-1)%Z, 179%N); (1%Z, 220%N); ((-1)%Z, 221%N); (1%Z, 260%N); ((-1)%Z, 261%N); (1%Z, 310%N); ((-1)%Z, 311%N); (1%Z, 316%N); ((-1)%Z, 317%N); (1%Z, 336%N); ((-1)%Z, 337%N); (1%Z, 344%N); ((-1)%Z, 345%N); (1%Z, 388%N); ((-1)%Z, 389%N); (1%Z, 392%N); ((-1)%Z, 393%N); (1%Z, 396%N); ((-1)%Z, 397%N); (1%Z, 440%N); ((-1)%Z, 441%N); (2%Z, 470%N); ((-2)%Z, 471%N); (1%Z, 494%N); ((-1)%Z, 495%N); (1%Z, 496%N); ((-1)%Z, 497%N); ((-1)%Z, 498%N); (1%Z, 499%N); ((-1)%Z, 528%N); (1%Z, 529%N); (1%Z, 536%N); ((-1)%Z, 537%N); (2%Z, 542%N); ((-2)%Z, 543%N); ((-1)%Z, 558%N); (1%Z, 559%N)] (* CH2O 2429 *);
   [(1%Z, 102%N); ((-1)%Z, 103%N); ((-1)%Z, 204%N); (1%Z, 205%N); ((-1)%Z, 206%N); (1%Z, 207%N); ((-1)%Z, 208%N); (1%Z, 209%N); ((-1)%Z, 210%N); (1%Z, 211%N); ((-1)%Z, 212%N); (1%Z, 213%N); ((-1)%Z, 214%N); (1%Z, 215%N); (1%Z, 216%N); ((-1)%Z, 217%N); (1%Z, 224%N); ((-1)%Z, 225%N); (1%Z, 226%N); ((-1)%Z, 227%N)] (* C2H6 2446 *);
   [((-1)%Z, 116%N); (1%Z, 117%N); ((-1)%Z, 118%N); (1%Z, 119%N); ((-1)%Z, 120%N); (1%Z, 121%N); ((-1)%Z, 122%N); (1%Z, 123%N); ((-1)%Z, 124%N); (1%Z, 125%N); ((-1)%Z, 126%N); (1%Z, 127%N); ((-1)%Z, 128%N); (1%Z, 129%N); ((-1)%Z, 130%N); (1%Z, 131%N); ((-1)%Z, 132%N); (1%Z, 133%N); ((-1)%Z, 134%N); (1%Z, 135%N); ((-2)%Z, 136%N); (2%Z, 137%N); ((-1)%Z, 138%N); (1%Z, 139%N); ((-1)%Z, 162%N); (1%Z, 163%N); (1%Z, 166%N); ((-1)%Z, 167%N); (1%Z, 170%N); ((-1)%Z, 171%N); (1%Z, 174%N); ((-1)%Z, 175%N); (1%Z, 176%N); ((-1)%Z, 177%N); (1%Z, 178%N); ((-1)%Z, 179%N); (1%Z, 180%N); ((-1)%Z, 181%N); (1%Z, 182%N); ((-1)%Z, 183%N); (1%Z, 184%N); ((-1)%Z, 185%N); (1%Z, 382%N); ((-1)%Z, 383%N); (1%Z, 404%N); ((-1)%Z, 405%N); (1%Z, 446%N); ((-1)%Z, 447%N); (1%Z, 460%N); ((-1)%Z, 461%N); (1%Z, 554%N); ((-1)%Z, 555%N)] (* CH2OH 2451 *);
   [(1%Z, 96%N); ((-1)%Z, 97%N); (1%Z, 100%N); ((-1)%Z, 101%N); ((-1)%Z, 138%N); (1%Z, 139%N); ((-1)%Z, 140%N); (1%Z, 141%N); ((-1)%Z, 142%N); (1%Z, 143%N); ((-1)%Z, 144%N); (1%Z, 145%N); ((-1)%Z, 146%N); (1%Z, 147%N); ((-1)%Z, 148%N); (1%Z, 149%N); ((-1)%Z, 150%N); (1%Z, 151%N); ((-1)%Z, 152%N); (1%Z, 153%N); ((-1)%Z, 154%N); (1%Z, 155%N); ((-1)%Z, 156%N); (1%Z, 157%N); ((-2)%Z, 158%N); (2%Z, 159%N); ((-1)%Z, 164%N); (1%Z, 165%N); (1%Z, 168%N); ((-1)%Z, 169%N); (1%Z, 172%N); ((-1)%Z, 173%N); ((-1)%Z, 184%N); (1%Z, 185%N); ((-1)%Z, 200%N); (1%Z, 201%N); (1%Z, 476%N); ((-1)%Z, 477%N); ((-1)%Z, 490%N); (1%Z, 491%N); ((-1)%Z, 496%N); (1%Z, 497%N); ((-1)%Z, 518%N); (1%Z, 519%N); (1%Z, 520%N); ((-1)%Z, 521%N); (1%Z, 536%N); ((-1)%Z, 537%N)] (* CH3O 2461 *);
   [((-1)%Z, 0%N); (1%Z, 1%N); (1%Z, 14%N); ((-1)%Z, 15%N); (1%Z, 16%N); ((-1)%Z, 17%N); (1%Z, 18%N); ((-1)%Z, 19%N); ((-1)%Z, 24%N); (1%Z, 25%N); (1%Z, 26%N); ((-1)%Z, 27%N); (1%Z, 30%N); ((-1)%Z, 31%N); (1%Z, 32%N); ((-1)%Z, 33%N); (1%Z, 34%N); ((-1)%Z, 35%N); (1%Z, 36%N); ((-1)%Z, 37%N); ((-1)%Z, 52%N); (1%Z, 53%N); ((-1)%Z, 60%N); (1%Z, 61%N); ((-1)%Z, 88%N); (1%Z, 89%N); ((-1)%Z, 96%N); (1%Z, 97%N); ((-1)%Z, 98%N); (1%Z, 99%N); (1%Z, 112%N); ((-1)%Z, 113%N); ((-1)%Z, 126%N); (1%Z, 127%N); ((-1)%Z, 128%N); (1%Z, 129%N); ((-1)%Z, 148%N); (1%Z, 149%N); ((-1)%Z, 150%N); (1%Z, 151%N); ((-1)%Z, 176%N); (1%Z, 177%N); ((-1)%Z, 210%N); (1%Z, 211%N); ((-1)%Z, 222%N); (1%Z, 223%N); ((-1)%Z, 248%N); (1%Z, 249%N); ((-1)%Z, 260%N); (1%Z, 261%N); ((-1)%Z, 262%N); (1%Z, 263%N); ((-1)%Z, 264%N); (1%Z, 265%N); ((-1)%Z, 288%N); (1%Z, 289%N); ((-1)%Z, 302%N); (1%Z, 303%N); ((-1)%Z, 314%N); (1%Z, 315%N); ((-1)%Z, 340%N); (1%Z, 341%N); ((-1)%Z, 342%N); (1%Z, 343%N); ((-1)%Z, 370%N); (1%Z, 371%N); ((-1)%Z, 392%N); (1%Z, 393%N); (1%Z, 398%N); ((-1)%Z, 399%N); ((-1)%Z, 442%N); (1%Z, 443%N); ((-1)%Z, 452%N); (1%Z, 453%N); ((-1)%Z, 454%N); (1%Z, 455%N); ((-1)%Z, 468%N); (1%Z, 469%N); ((-1)%Z, 488%N); (1%Z, 489%N); ((-1)%Z, 506%N); (1%Z, 507%N); ((-1)%Z, 526%N); (1%Z, 527%N); (1%Z, 530%N); ((-1)%Z, 531%N); (1%Z, 532%N); ((-1)%Z, 533%N); ((-1)%Z, 538%N); (1%Z, 539%N); ((-1)%Z, 544%N); (1%Z, 545%N)] (* O2 2471 *);
   [(1%Z, 132%N); ((-1)%Z, 133%N); (1%Z, 136%N); ((-1)%Z, 137%N); (1%Z, 138%N); ((-1)%Z, 139%N); (1%Z, 156%N); ((-1)%Z, 157%N); (1%Z, 158%N); ((-1)%Z, 159%N); (1%Z, 160%N); ((-1)%Z, 161%N); (1%Z, 162%N); ((-1)%Z, 163%N); (1%Z, 164%N); ((-1)%Z, 165%N); ((-1)%Z, 166%N); (1%Z, 167%N); ((-1)%Z, 168%N); (1%Z, 169%N); ((-1)%Z, 170%N); (1%Z, 171%N); ((-1)%Z, 172%N); (1%Z, 173%N); ((-1)%Z, 174%N); (1%Z, 175%N); ((-1)%Z, 176%N); (1%Z, 177%N); ((-1)%Z, 178%N); (1%Z, 179%N); ((-1)%Z, 180%N); (1%Z, 181%N); ((-1)%Z, 182%N); (1%Z, 183%N); ((-1)%Z, 184%N); (1%Z, 184%N); ((-1)%Z, 185%N); (1%Z, 185%N); (1%Z, 202%N); ((-1)%Z, 203%N); (1%Z, 490%N); ((-1)%Z, 491%N); (1%Z, 518%N); ((-1)%Z, 519%N)] (* CH3OH 2488 *);
   [(1%Z, 24%N); ((-1)%Z, 25%N); ((-1)%Z, 26%N); (1%Z, 27%N); ((-1)%Z, 28%N); (1%Z, 29%N); ((-1)%Z, 30%N); (1%Z, 31%N); ((-1)%Z, 32%N); (1%Z, 33%N); ((-2)%Z, 34%N); (2%Z, 35%N); ((-2)%Z, 36%N); (2%Z, 37%N); (1%Z, 42%N); ((-1)%Z, 43%N); (1%Z, 44%N); ((-1)%Z, 45%N); (1%Z, 46%N); ((-1)%Z, 47%N); (1%Z, 48%N); ((-1)%Z, 49%N); ((-1)%Z, 54%N); (1%Z, 55%N); (1%Z, 60%N); ((-1)%Z, 61%N); ((-1)%Z, 70%N); (1%Z, 71%N); (1%Z, 88%N); ((-1)%Z, 89%N); ((-1)%Z, 90%N); (1%Z, 91%N); ((-1)%Z, 100%N); (1%Z, 101%N); ((-1)%Z, 112%N); (1%Z, 113%N); ((-1)%Z, 114%N); (1%Z, 115%N); (1%Z, 126%N); ((-1)%Z, 127%N); (1%Z, 128%N); ((-1)%Z, 129%N); ((-1)%Z, 130%N); (1%Z, 131%N); (1%Z, 148%N); ((-1)%Z, 149%N); (1%Z, 150%N); ((-1)%Z, 151%N); ((-1)%Z, 152%N); (1%Z, 153%N); (1%Z, 176%N); ((-1)%Z, 177%N); ((-1)%Z, 180%N); (1%Z, 181%N); (1%Z, 210%N); ((-1)%Z, 211%N); ((-1)%Z, 212%N); (1%Z, 213%N); (1%Z, 222%N); ((-1)%Z, 223%N); (1%Z, 248%N); ((-1)%Z, 249%N); (1%Z, 254%N); ((-1)%Z, 255%N); (1%Z, 262%N); ((-1)%Z, 263%N); ((-1)%Z, 282%N); (1%Z, 283%N); ((-1)%Z, 316%N); (1%Z, 317%N); ((-1)%Z, 366%N); (1%Z, 367%N); ((-1)%Z, 368%N); (1%Z, 369%N); (1%Z, 370%N); ((-1)%Z, 371%N); ((-1)%Z, 396%N); (1%Z, 397%N); ((-1)%Z, 398%N); (1%Z, 399%N); ((-1)%Z, 432%N); (1%Z, 433%N); ((-1)%Z, 434%N); (1%Z, 435%N); ((-1)%Z, 436%N); (1%Z, 437%N); (1%Z, 442%N); ((-1)%Z, 443%N); (1%Z, 452%N); ((-1)%Z, 453%N); (1%Z, 454%N); ((-1)%Z, 455%N); ((-1)%Z, 462%N); (1%Z, 463%N); ((-1)%Z, 474%N); (1%Z, 475%N); ((-1)%Z, 486%N); (1%Z, 487%N); (1%Z, 488%N); ((-1)%Z, 489%N); ((-1)%Z, 500%N); (1%Z, 501%N); (1%Z, 506%N); ((-1)%Z, 507%N); ((-1)%Z, 510%N); (1%Z, 511%N); (1%Z, 538%N); ((-1)%Z, 539%N); ((-1)%Z, 576%N); (1%Z, 577%N)] (* HO2 2497 *);
   [(1%Z, 34%N); ((-1)%Z, 35%N); (1%Z, 36%N); ((-1)%Z, 37%N); ((-1)%Z, 38%N); (1%Z, 39%N); ((-1)%Z, 40%N); (1%Z, 41%N); ((-1)%Z, 42%N); (1%Z, 43%N); ((-1)%Z, 44%N); (1%Z, 45%N); ((-1)%Z, 46%N); (1%Z, 47%N); ((-1)%Z, 48%N); (1%Z, 49%N); (1%Z, 90%N); ((-1)%Z, 91%N); (1%Z, 114%N); ((-1)%Z, 115%N); (1%Z, 130%N); ((-1)%Z, 131%N); (1%Z, 152%N); ((-1)%Z, 153%N); (1%Z, 180%N); ((-1)%Z, 181%N); (1%Z, 212%N); ((-1)%Z, 213%N); ((-1)%Z, 254%N); (1%Z, 255%N); (1%Z, 366%N); ((-1)%Z, 367%N); (1%Z, 368%N); ((-1)%Z, 369%N); (1%Z, 432%N); ((-1)%Z, 433%N); (1%Z, 434%N); ((-1)%Z, 435%N); (1%Z, 436%N); ((-1)%Z, 437%N); (1%Z, 486%N); ((-1)%Z, 487%N); (1%Z, 510%N); ((-1)%Z, 511%N); (1%Z, 576%N); ((-1)%Z, 577%N)] (* H2O2 2517 *);
   [(1%Z, 268%N); ((-1)%Z, 269%N); ((-1)%Z, 284%N); (1%Z, 285%N); ((-1)%Z, 286%N); (1%Z, 287%N); ((-1)%Z, 288%N); (1%Z, 289%N); ((-1)%Z, 290%N); (1%Z, 291%N); ((-1)%Z, 292%N); (1%Z, 293%N); ((-2)%Z, 294%N); (2%Z, 295%N); ((-1)%Z, 296%N); (1%Z, 297%N); (1%Z, 300%N); ((-1)%Z, 301%N); (1%Z, 376%N); ((-1)%Z, 377%N); (1%Z, 378%N); ((-1)%Z, 379%N); (1%Z, 380%N); ((-1)%Z, 381%N)] (* HCCO 2526 *);
   [(1%Z, 252%N); ((-1)%Z, 253%N); (1%Z, 274%N); ((-1)%Z, 275%N); (1%Z, 282%N); ((-1)%Z, 283%N); (1%Z, 318%N); ((-1)%Z, 319%N); ((-1)%Z, 372%N); (1%Z, 373%N); ((-1)%Z, 374%N); (1%Z, 375%N); ((-1)%Z, 376%N); (1%Z, 377%N); ((-1)%Z, 378%N); (1%Z, 379%N); ((-1)%Z, 380%N); (1%Z, 381%N); ((-1)%Z, 382%N); (1%Z, 383%N); (1%Z, 386%N); ((-1)%Z, 387%N); (1%Z, 390%N); ((-1)%Z, 391%N); (1%Z, 402%N); ((-1)%Z, 403%N)] (* CH2CO 2532 *);
   [(1%Z, 276%N); ((-1)%Z, 277%N)] (* HCCOH 2539 *);
   [(1%Z, 264%N); ((-1)%Z, 265%N); (1%Z, 352%N); ((-1)%Z, 353%N); (1%Z, 356%N); ((-1)%Z, 357%N); (1%Z, 360%N); ((-1)%Z, 361%N); (1%Z, 364%N); ((-1)%Z, 365%N); (1%Z, 368%N); ((-1)%Z, 369%N); ((-1)%Z, 384%N); (1%Z, 385%N); ((-1)%Z, 386%N); (1%Z, 387%N); ((-1)%Z, 388%N); (1%Z, 389%N); ((-1)%Z, 390%N); (1%Z, 391%N); ((-1)%Z, 392%N); (1%Z, 393%N); ((-1)%Z, 394%N); (1%Z, 395%N); ((-1)%Z, 396%N); (1%Z, 397%N); ((-1)%Z, 398%N); (1%Z, 399%N); ((-1)%Z, 400%N); (1%Z, 401%N); ((-1)%Z, 402%N); (1%Z, 403%N)] (* CH2HCO 2541 *);
   [((-1)%Z, 348%N); (1%Z, 349%N); (1%Z, 350%N); ((-1)%Z, 351%N); (1%Z, 354%N); ((-1)%Z, 355%N); (1%Z, 358%N); ((-1)%Z, 359%N); (1%Z, 362%N); ((-1)%Z, 363%N); (1%Z, 366%N); ((-1)%Z, 367%N); (1%Z, 370%N); ((-1)%Z, 371%N)] (* CH3CO 2549 *);
   [(1%Z, 50%N); ((-1)%Z, 51%N); (1%Z, 52%N); ((-1)%Z, 53%N); (1%Z, 54%N); ((-1)%Z, 55%N); (1%Z, 56%N); ((-1)%Z, 57%N); (1%Z, 68%N); ((-1)%Z, 69%N); (1%Z, 70%N); ((-1)%Z, 71%N); (1%Z, 154%N); ((-1)%Z, 155%N); ((-1)%Z, 328%N); (1%Z, 328%N); ((-1)%Z, 329%N); (1%Z, 329%N); ((-1)%Z, 344%N); (1%Z, 345%N); (1%Z, 372%N); ((-1)%Z, 373%N); (1%Z, 444%N); ((-1)%Z, 445%N); (1%Z, 522%N); ((-1)%Z, 523%N); (1%Z, 524%N); ((-1)%Z, 525%N); (1%Z, 554%N); ((-1)%Z, 555%N); (1%Z, 562%N); ((-1)%Z, 563%N); (1%Z, 566%N); ((-1)%Z, 567%N); (1%Z, 570%N); ((-1)%Z, 571%N)] (* CO2 2553 *);
   [(1%Z, 228%N); ((-1)%Z, 229%N); ((-1)%Z, 346%N); (1%Z, 347%N); ((-1)%Z, 350%N); (1%Z, 351%N); ((-1)%Z, 352%N); (1%Z, 353%N); ((-1)%Z, 354%N); (1%Z, 355%N); ((-1)%Z, 356%N); (1%Z, 357%N); ((-1)%Z, 358%N); (1%Z, 359%N); ((-1)%Z, 360%N); (1%Z, 361%N); ((-1)%Z, 362%N); (1%Z, 363%N); ((-1)%Z, 364%N); (1%Z, 365%N); ((-1)%Z, 366%N); (1%Z, 367%N); ((-1)%Z, 368%N); (1%Z, 369%N); ((-1)%Z, 370%N); (1%Z, 371%N); (1%Z, 398%N); ((-1)%Z, 399%N); (1%Z, 438%N); ((-1)%Z, 439%N); (1%Z, 442%N); ((-1)%Z, 443%N); (1%Z, 450%N); ((-1)%Z, 451%N); (1%Z, 452%N); ((-1)%Z, 453%N); (1%Z, 454%N); ((-1)%Z, 455%N); (1%Z, 456%N); ((-1)%Z, 457%N); (1%Z, 462%N); ((-1)%Z, 463%N); (1%Z, 464%N); ((-1)%Z, 465%N); (1%Z, 466%N); ((-1)%Z, 467%N)] (* CH3HCO 2560 *);
   [(1%Z, 504%N); ((-1)%Z, 505%N); ((-1)%Z, 524%N); (1%Z, 525%N)] (* OCHO 2570 *);
   [(1%Z, 410%N); ((-1)%Z, 411%N); (1%Z, 416%N); ((-1)%Z, 417%N); (1%Z, 422%N); ((-1)%Z, 423%N); (1%Z, 428%N); ((-1)%Z, 429%N); (1%Z, 432%N); ((-1)%Z, 433%N); ((-1)%Z, 452%N); (1%Z, 453%N); ((-1)%Z, 454%N); (1%Z, 455%N); ((-1)%Z, 456%N); (1%Z, 457%N); ((-1)%Z, 458%N); (1%Z, 459%N); ((-1)%Z, 460%N); (1%Z, 461%N); ((-1)%Z, 462%N); (1%Z, 463%N); ((-1)%Z, 464%N); (1%Z, 465%N); ((-1)%Z, 466%N); (1%Z, 467%N)] (* CH3CHOH 2572 *);
   [(1%Z, 408%N); ((-1)%Z, 409%N); (1%Z, 414%N); ((-1)%Z, 415%N); (1%Z, 420%N); ((-1)%Z, 421%N); (1%Z, 426%N); ((-1)%Z, 427%N); (1%Z, 434%N); ((-1)%Z, 435%N); ((-1)%Z, 468%N); (1%Z, 469%N); (1%Z, 472%N); ((-1)%Z, 473%N)] (* C2H4OH 2579 *);
   [(1%Z, 412%N); ((-1)%Z, 413%N); (1%Z, 418%N); ((-1)%Z, 419%N); (1%Z, 424%N); ((-1)%Z, 425%N); (1%Z, 430%N); ((-1)%Z, 431%N); (1%Z, 436%N); ((-1)%Z, 437%N); ((-1)%Z, 438%N); (1%Z, 439%N); ((-1)%Z, 440%N); (1%Z, 441%N); ((-1)%Z, 442%N); (1%Z, 443%N); ((-1)%Z, 444%N); (1%Z, 445%N); ((-1)%Z, 446%N); (1%Z, 447%N); ((-1)%Z, 448%N); (1%Z, 449%N); ((-1)%Z, 450%N); (1%Z, 451%N); (1%Z, 474%N); ((-1)%Z, 475%N)] (* CH3CH2O 2583 *);
   [(1%Z, 478%N); ((-1)%Z, 479%N); (1%Z, 480%N); ((-1)%Z, 481%N); (1%Z, 482%N); ((-1)%Z, 483%N); (1%Z, 484%N); ((-1)%Z, 485%N); (1%Z, 486%N); ((-1)%Z, 487%N); (1%Z, 488%N); ((-1)%Z, 489%N); (1%Z, 490%N); ((-1)%Z, 491%N); (1%Z, 492%N); ((-1)%Z, 493%N); ((-1)%Z, 494%N); (1%Z, 495%N); ((-1)%Z, 496%N); (1%Z, 497%N); ((-1)%Z, 498%N); (1%Z, 499%N); ((-1)%Z, 500%N); (1%Z, 501%N); ((-1)%Z, 526%N); (1%Z, 527%N)] (* CH3OCH2 2590 *);
   [(1%Z, 556%N); ((-1)%Z, 557%N); ((-1)%Z, 560%N); (1%Z, 561%N); ((-1)%Z, 562%N); (1%Z, 563%N); ((-1)%Z, 564%N); (1%Z, 565%N); ((-1)%Z, 566%N); (1%Z, 567%N); ((-1)%Z, 568%N); (1%Z, 569%N); ((-1)%Z, 570%N); (1%Z, 571%N); ((-1)%Z, 572%N); (1%Z, 573%N); ((-1)%Z, 574%N); (1%Z, 575%N); ((-1)%Z, 576%N); (1%Z, 577%N); ((-1)%Z, 578%N); (1%Z, 579%N)] (* HCOOH 2597 *);
   [((-1)%Z, 476%N); (1%Z, 477%N); ((-1)%Z, 478%N); (1%Z, 479%N); ((-1)%Z, 480%N); (1%Z, 481%N); ((-1)%Z, 482%N); (1%Z, 483%N); ((-1)%Z, 484%N); (1%Z, 485%N); ((-1)%Z, 486%N); (1%Z, 487%N); ((-1)%Z, 488%N); (1%Z, 489%N); ((-1)%Z, 490%N); (1%Z, 491%N); ((-1)%Z, 492%N); (1%Z, 493%N); (1%Z, 496%N); ((-1)%Z, 497%N); (1%Z, 498%N); ((-1)%Z, 499%N)] (* CH3OCH3 2603 *);
   [((-1)%Z, 404%N); (1%Z, 405%N); ((-1)%Z, 406%N); (1%Z, 407%N); ((-1)%Z, 408%N); (1%Z, 409%N); ((-1)%Z, 410%N); (1%Z, 411%N); ((-1)%Z, 412%N); (1%Z, 413%N); ((-1)%Z, 414%N); (1%Z, 415%N); ((-1)%Z, 416%N); (1%Z, 417%N); ((-1)%Z, 418%N); (1%Z, 419%N); ((-1)%Z, 420%N); (1%Z, 421%N); ((-1)%Z, 422%N); (1%Z, 423%N); ((-1)%Z, 424%N); (1%Z, 425%N); ((-1)%Z, 426%N); (1%Z, 427%N); ((-1)%Z, 428%N); (1%Z, 429%N); ((-1)%Z, 430%N); (1%Z, 431%N); ((-1)%Z, 432%N); (1%Z, 433%N); ((-1)%Z, 434%N); (1%Z, 435%N); ((-1)%Z, 436%N); (1%Z, 437%N)] (* C2H5OH 2609 *);
   [(1%Z, 552%N); ((-1)%Z, 553%N); ((-1)%Z, 556%N); (1%Z, 557%N); (1%Z, 558%N); ((-1)%Z, 559%N)] (* HOCH2O 2617 *);
   [(1%Z, 506%N); ((-1)%Z, 507%N); (1%Z, 508%N); ((-1)%Z, 509%N); (1%Z, 510%N); ((-1)%Z, 511%N); (1%Z, 512%N); ((-1)%Z, 513%N); (1%Z, 514%N); ((-1)%Z, 515%N); (1%Z, 516%N); ((-1)%Z, 517%N); (1%Z, 518%N); ((-1)%Z, 519%N); ((-1)%Z, 520%N); (1%Z, 521%N); ((-1)%Z, 522%N); (1%Z, 523%N)] (* CH3OCO 2620 *);
   [(1%Z, 502%N); ((-1)%Z, 503%N); ((-1)%Z, 504%N); (1%Z, 505%N); ((-1)%Z, 506%N); (1%Z, 507%N); ((-1)%Z, 508%N); (1%Z, 509%N); ((-1)%Z, 510%N); (1%Z, 511%N); ((-1)%Z, 512%N); (1%Z, 513%N); ((-1)%Z, 514%N); (1%Z, 515%N); ((-1)%Z, 516%N); (1%Z, 517%N); ((-1)%Z, 518%N); (1%Z, 519%N); (1%Z, 532%N); ((-1)%Z, 533%N); (1%Z, 538%N); ((-1)%Z, 539%N)] (* CH3OCHO 2625 *);
   [(1%Z, 500%N); ((-1)%Z, 501%N); ((-1)%Z, 502%N); (1%Z, 503%N); (2%Z, 530%N); ((-2)%Z, 531%N); (1%Z, 534%N); ((-1)%Z, 535%N); ((-1)%Z, 536%N); (1%Z, 537%N); ((-1)%Z, 538%N); (1%Z, 539%N)] (* CH3OCH2O 2631 *);
   [(1%Z, 532%N); ((-1)%Z, 533%N)] (* CH3OCH2OH 2635 *);
   [(1%Z, 548%N); ((-1)%Z, 549%N); ((-1)%Z, 550%N); (1%Z, 551%N)] (* OCH2OCHO 2637 *);
   [(1%Z, 550%N); ((-1)%Z, 551%N); ((-1)%Z, 552%N); (1%Z, 553%N); ((-1)%Z, 554%N); (1%Z, 555%N)] (* HOCH2OCO 2639 *);
   [(1%Z, 468%N); ((-1)%Z, 469%N); ((-1)%Z, 470%N); (1%Z, 471%N)] (* HOC2H4O2 2642 *);
   [((-1)%Z, 492%N); (1%Z, 493%N); (1%Z, 526%N); ((-1)%Z, 527%N); ((-1)%Z, 528%N); (1%Z, 529%N); ((-2)%Z, 530%N); (2%Z, 531%N); ((-2)%Z, 532%N); (2%Z, 533%N); ((-1)%Z, 540%N); (1%Z, 541%N)] (* CH3OCH2O2 2644 *);
   [(1%Z, 540%N); ((-1)%Z, 541%N); ((-1)%Z, 542%N); (1%Z, 543%N); ((-1)%Z, 544%N); (1%Z, 545%N)] (* CH2OCH2O2H 2649 *);
   [(1%Z, 492%N); ((-1)%Z, 493%N); (1%Z, 528%N); ((-1)%Z, 529%N); ((-1)%Z, 534%N); (1%Z, 535%N)] (* CH3OCH2O2H 2652 *);
   [(1%Z, 546%N); ((-1)%Z, 547%N); ((-1)%Z, 548%N); (1%Z, 549%N)] (* HO2CH2OCHO 2655 *);
   [(1%Z, 544%N); ((-1)%Z, 545%N); ((-1)%Z, 546%N); (1%Z, 547%N)] (* O2CH2OCH2O2H 2657 *);
   [((-1)%Z, 10%N); (1%Z, 10%N); ((-1)%Z, 11%N); (1%Z, 11%N); ((-1)%Z, 16%N); (1%Z, 16%N); ((-1)%Z, 17%N); (1%Z, 17%N); ((-1)%Z, 330%N); (1%Z, 330%N); ((-1)%Z, 331%N); (1%Z, 331%N)] (* AR 2659 *);
   [((-1)%Z, 12%N); (1%Z, 12%N); ((-1)%Z, 13%N); (1%Z, 13%N); ((-1)%Z, 18%N); (1%Z, 18%N); ((-1)%Z, 19%N); (1%Z, 19%N)] (* HE 2662 *)].

(** Zhao2008Dme; GetLindRateCoeff is src/equations/ideal_gas_mix/mechanism/Zhao2008Dme.cpp:2666-2697 *)
Definition zhao : tables := mkTables zhao_weights zhao_third zhao_reactions zhao_production LindFloor.
