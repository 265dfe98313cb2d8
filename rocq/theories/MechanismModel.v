(** Model of the chemistry mechanisms: what [ComputeProductionRates] of each of the five mechanisms computes from tables of
    numbers.  Sources: src/equations/ideal_gas_mix/mechanism/{Burke2012,Zhao2008Dme,Gri30,AramcoMech_DMEonly_74spec,
    AramcoMech_woC3H4_91spec}.cpp.  The tables themselves are in MechBurke.v, MechZhao.v, MechGri.v, MechAramco74.v and
    MechAramco91.v.  Doubles are real numbers; underflow and overflow are left out.  [None] is a result which is not a finite
    number. *)
From Coq Require Import String List ZArith NArith QArith Qreals Reals.
Import ListNotations.
Local Open Scope R_scope.

(** Coefficients A exp(b lgt - E / rt), e.g. Burke2012.cpp:58-60.  A coefficient which is a constant has b = E = 0, one
    without lgt has b = 0, e.g. Burke2012.cpp:95. *)
Record arrhenius := Arr { pre : Q; power : Q; activation : Q }.

(** The terms w exp(-temp / T0) and w exp(-T0 / temp) of fcTroe, e.g. Gri30.cpp:266-268 *)
Inductive fc_term := Decay (w T0 : Q) | Grow (w T0 : Q).

(** The three kinds of rate coefficients: k = A exp(...), k = GetLindRateCoeff(temp, pressure, kTroe0, kTroeInf, fcTroe, M[m]),
    e.g. Burke2012.cpp:86-89, and k = GetPlogRateCoeff(temp, pressure, lgt, rt_inv, PlogP, PlogA, PlogB, PlogE, np) with the
    assignments to the arrays before, e.g. AramcoMech_DMEonly_74spec.cpp:1177-1199 *)
Inductive coefficient :=
| Simple (a : arrhenius)
| Falloff (low high : arrhenius) (fc : list fc_term) (m : nat)
| Plog (table : list (Q * arrhenius)).

(** The factors c[s] and M[m] of the rate of a reaction, e.g. Burke2012.cpp:123-126 *)
Inductive factor := Conc (s : nat) | Third (m : nat).

(** The three versions of GetLindRateCoeff, Burke2012.cpp:793-823, Gri30.cpp:2501-2530 and the equal ones in Zhao2008Dme.cpp:2666-2697,
    AramcoMech_DMEonly_74spec.cpp:5144-5176, AramcoMech_woC3H4_91spec.cpp:6203-6234 *)
Inductive lind_version := LindBurke | LindGri | LindFloor.

(** A mechanism: molar masses, third bodies, reactions, production rates, e.g. Burke2012.hpp:147-160 and Burke2012.cpp:39-225 *)
Record tables := mkTables {
  weights : list Q;
  third : list (list (Q * nat));
  reactions : list (coefficient * list factor);
  production : list (list (Z * N));
  version : lind_version
}.

(** RGAS, e.g. Burke2012.cpp:35 *)
Definition RGAS : R := 8314.34.

(** A exp(b lgt - E / rt) with lgt = log(temp), rt = RGAS temp, e.g. Burke2012.cpp:36-37, 58.  The other mechanisms multiply by
    rt_inv = 1 / rt, e.g. Zhao2008Dme.cpp:42. *)
Definition arr (T : R) (a : arrhenius) : R := Q2R (pre a) * exp (Q2R (power a) * ln T - Q2R (activation a) / (RGAS * T)).

(** One term of fcTroe, e.g. Gri30.cpp:266-268 *)
Definition fc_value (T : R) (t : fc_term) : R :=
  match t with Decay w T0 => Q2R w * exp (- T / Q2R T0) | Grow w T0 => Q2R w * exp (- Q2R T0 / T) end.
(** fcTroe, e.g. Gri30.cpp:266-268 *)
Definition fcTroe (T : R) (l : list fc_term) : R := fold_right (fun t acc => fc_value T t + acc) 0 l.

(** log10 of the standard library for positive arguments *)
Definition log10 (x : R) : R := ln x / ln 10.
(** pow of the standard library for exponents in [0, 1]: a negative number to a power which is not an integer is not a number *)
Definition cpow (x y : R) : option R :=
  if Req_EM_T y 0 then Some 1
  else if Rlt_dec 0 x then Some (Rpower x y)
  else if Req_EM_T x 0 then Some 0
  else if Req_EM_T y 1 then Some x else None.
(** MAX_C, e.g. Burke2012.cpp:825 *)
Definition MAX_C (a b : R) : R := if Rlt_dec b a then a else b.
(** MIN_C, AramcoMech_DMEonly_74spec.cpp:8296 *)
Definition MIN_C (a b : R) : R := if Rlt_dec a b then a else b.

(** conc, Burke2012.cpp:803-805.  The other versions test isinf(conc), which real numbers never are, e.g. Gri30.cpp:2511-2513. *)
Definition lind_conc (v : lind_version) (T p conc : R) : R :=
  match v with LindBurke => if Rle_dec conc 0 then p / (RGAS * T) else conc | _ => conc end.
(** log10(fc), Burke2012.cpp:806, 808, or fc < 1e-200 ? -200 : log10(fc), Gri30.cpp:2514, 2516.  The logarithm of a number
    which is not positive is not a finite number. *)
Definition lind_logfc (v : lind_version) (fc : R) : option R :=
  match v with
  | LindBurke => if Rlt_dec 0 fc then Some (log10 fc) else None
  | _ => Some (if Rlt_dec fc (/ 10 ^ 200) then -200 else log10 fc)
  end.
(** log10kNull, Burke2012.cpp:811; Gri30.cpp:2519; Zhao2008Dme.cpp:2685 *)
Definition lind_logk (v : lind_version) (k0 : R) : option R :=
  match v with
  | LindBurke => if Rlt_dec 0 k0 then Some (log10 k0) else None
  | LindGri => Some (if Rlt_dec k0 (/ 10 ^ 200) then -200 else log10 k0)
  | LindFloor => Some (log10 (MAX_C k0 (/ 10 ^ 60)))
  end.
(** 1 / (f f + 1), Burke2012.cpp:812-813, where f = num / den.  For den = 0 the quotient is infinite (and the result 0) unless
    num = 0, when it is not a number. *)
Definition lind_exponent (num den : R) : option R :=
  if Req_EM_T den 0 then if Req_EM_T num 0 then None else Some 0
  else Some (1 / (num / den * (num / den) + 1)).

(** GetLindRateCoeff: Burke2012.cpp:793-823, Gri30.cpp:2501-2530, Zhao2008Dme.cpp:2666-2697 with iTroe = 1 *)
Definition GetLindRateCoeff (v : lind_version) (T p k0 kInf fc conc : R) : option R :=
  let conc := lind_conc v T p conc in
  match lind_logfc v fc with
  | None => None
  | Some logfc =>
      let Ntmp := 0.75 - 1.27 * logfc in
      let cCoeff := -0.4 - 0.67 * logfc in
      let k0 := k0 * (conc / MAX_C kInf (/ 10 ^ 60)) in
      match lind_logk v k0 with
      | None => None
      | Some log10kNull =>
          match lind_exponent (log10kNull + cCoeff) (Ntmp - 0.14 * (log10kNull + cCoeff)) with
          | None => None
          | Some e =>
              match cpow fc e with
              | None => None
              | Some f => if Req_EM_T (1 + k0) 0 then None else Some (kInf * (f * k0 / (1 + k0)))
              end
          end
      end
  end.

(** DBL_MAX *)
Definition DBL_MAX : R := IZR (2 ^ 1024 - 2 ^ 971).

(** The loop and the interpolation of GetPlogRateCoeff between the entry (P, kl) and the rest of the table,
    AramcoMech_DMEonly_74spec.cpp:8306-8319 *)
Fixpoint plog_interpolate (T p P kl : R) (table : list (Q * arrhenius)) : R :=
  match table with
  | [] => kl
  | (P', a) :: rest =>
      let kr := arr T a in
      if Rle_dec p (Q2R P') then
        exp (ln (MAX_C kl (/ 10 ^ 60)) +
             (ln (MAX_C kr (/ 10 ^ 60)) - ln (MAX_C kl (/ 10 ^ 60))) / (ln (Q2R P') - ln P) * (ln p - ln P))
      else plog_interpolate T p (Q2R P') kr rest
  end.
(** GetPlogRateCoeff, AramcoMech_DMEonly_74spec.cpp:8298-8322, AramcoMech_woC3H4_91spec.cpp:8729-8753 *)
Definition GetPlogRateCoeff (T p : R) (table : list (Q * arrhenius)) : option R :=
  match table with
  | [] => None
  | (P0, a0) :: rest =>
      let '(Pn, an) := last table (P0, a0) in
      Some (MIN_C
        (if Rle_dec p (Q2R P0) then arr T a0
         else if Rle_dec (Q2R Pn) p then arr T an
         else plog_interpolate T p (Q2R P0) (arr T a0) rest) DBL_MAX)
  end.

(** One entry of c or M *)
Definition at_ (l : list R) (i : nat) : R := nth i l 0.

(** M, e.g. Burke2012.cpp:39-56 *)
Definition third_bodies (t : tables) (c : list R) : list R :=
  map (fun l => fold_right (fun x acc => Q2R (fst x) * at_ c (snd x) + acc) 0 l) (third t).

(** k of one reaction, e.g. Burke2012.cpp:58-121 *)
Definition rate_coefficient (v : lind_version) (T p : R) (M : list R) (k : coefficient) : option R :=
  match k with
  | Simple a => Some (arr T a)
  | Falloff low high fc m => GetLindRateCoeff v T p (arr T low) (arr T high) (fcTroe T fc) (at_ M m)
  | Plog table => GetPlogRateCoeff T p table
  end.

(** c[s] or M[m] *)
Definition factor_value (c M : list R) (f : factor) : R := match f with Conc s => at_ c s | Third m => at_ M m end.
(** The product of the factors, e.g. Burke2012.cpp:123-176 *)
Definition factors_value (c M : list R) (l : list factor) : R := fold_right (fun f acc => factor_value c M f * acc) 1 l.

(** w of all reactions; [None] if one of them is not a number *)
Fixpoint rates_of (v : lind_version) (T p : R) (c M : list R) (l : list (coefficient * list factor)) : option (list R) :=
  match l with
  | [] => Some []
  | (k, fs) :: rest =>
      match rate_coefficient v T p M k, rates_of v T p c M rest with
      | Some kv, Some ws => Some (kv * factors_value c M fs :: ws)
      | _, _ => None
      end
  end.

(** w, e.g. Burke2012.cpp:123-176.  The logarithm of the temperature is a number only for positive temperatures. *)
Definition reaction_rates (t : tables) (c : list R) (T p : R) : option (list R) :=
  if Rlt_dec 0 T then rates_of (version t) T p c (third_bodies t c) (reactions t) else None.

(** cdot of one species, e.g. Burke2012.cpp:180-184 *)
Definition production_of (ws : list R) (l : list (Z * N)) : R :=
  fold_right (fun x acc => IZR (fst x) * at_ ws (N.to_nat (snd x)) + acc) 0 l.

(** [ComputeProductionRates], e.g. Burke2012.cpp:17-226.  [None] if one of the rates is not a number; the code then writes
    entries which are not numbers for the species of that reaction. *)
Definition ComputeProductionRates (t : tables) (c : list R) (T p : R) : option (list R) :=
  match reaction_rates t c T p with
  | Some ws => Some (map (production_of ws) (production t))
  | None => None
  end.
