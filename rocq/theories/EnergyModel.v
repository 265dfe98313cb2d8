(** Model of the temperature iteration of the reactor.
    Source: src/equations/ideal_gas_mix/FlameMasterReactor.cpp:185-272 (scalar) and 601-680 (packs).
    Doubles are real numbers. [u T] is the energy (or enthalpy) of the mixture at the temperature T and [cv T] its heat
    capacity, the composition is fixed during the iteration. *)
From Coq Require Import List ZArith Reals Bool.
Import ListNotations.
Local Open Scope R_scope.

Section Energy.
Variables (u cv : R -> R).

(** The variables of the loop, FlameMasterReactor.cpp:189-199 *)
Record newton := mkNewton {
  Tnew : R; Unew : R; Cvnew : R;
  Utop : R; Ubot : R; Ttop : R; Tbot : R;
  unstable : bool
}.

(** FlameMasterReactor.cpp:189-198: the start at the temperature of the reactor *)
Definition newton_start (T : R) : newton := mkNewton T (u T) (cv T) (u T) (u T) T T false.

(** FlameMasterReactor.cpp:213: the step of Newton's method, not larger than 100 *)
Definition newton_step (target Uold cvd : R) : R := Rmax (-100) (Rmin 100 ((target - Uold) / cvd)).

(** FlameMasterReactor.cpp:214-225: the limited step *)
Definition limited_step (target : R) (s : newton) (unst : bool) (dT : R) : R :=
  let Told := Tnew s in
  let T := Told + dT in
  if ((if Rlt_dec 0 dT then unst else false) || (if Rle_dec dT 0 then negb unst else false))%bool then
    if (if Rlt_dec (Ubot s) target then if Rlt_dec T (3 / 4 * Tbot s + 1 / 4 * Told) then true else false else false)
    then 3 / 4 * (Tbot s - Told) else dT
  else
    if (if Rlt_dec target (Utop s) then if Rlt_dec (3 / 4 * Ttop s + 1 / 4 * Told) T then true else false else false)
    then 3 / 4 * (Ttop s - Told) else dT.

(** FlameMasterReactor.cpp:229-241: the inner loop; returns the step and the new temperature *)
Fixpoint stay_stable (its : nat) (Told dT : R) : R * R :=
  match its with
  | O => (dT, Told + dT)
  | S its' =>
      let T := Told + dT in
      if Rlt_dec (cv T) 0 then
        match its' with
        | O => (1 / 4 * dT, T)
        | S _ => stay_stable its' Told (1 / 4 * dT)
        end
      else (dT, T)
  end.

(** Result of one pass of the loop: the function returns with the reactor at a temperature, or it goes on *)
Inductive pass := Return (T : R) | Continue (s : newton).

(** FlameMasterReactor.cpp:243-261: updates of the bounds and the checks *)
Definition check (target dTtol cvd dT T : R) (s : newton) (unst : bool) : pass :=
  let U := u T in
  if Req_EM_T U target then Return T else
  let s' :=
    if (if Rlt_dec target U then (if Rlt_dec (Utop s) target then true else if Rlt_dec U (Utop s) then true else false) else false)
    then mkNewton T U (cv T) U (Ubot s) T (Tbot s) unst
    else if (if Rlt_dec U target then (if Rlt_dec target (Ubot s) then true else if Rlt_dec (Ubot s) U then true else false) else false)
    then mkNewton T U (cv T) (Utop s) U (Ttop s) T unst
    else mkNewton T U (cv T) (Utop s) (Ubot s) (Ttop s) (Tbot s) unst in
  let acvd := Rmax (Rabs cvd) (1 / 100000) in
  let denom := Rmax (Rabs target) (acvd * dTtol) in
  let err := Rabs ((target - U) / denom) in
  if Rlt_dec err (1 / 100000 * dTtol) then Return T
  else if Rlt_dec (Rabs dT) dTtol then Return T
  else Continue s'.

(** FlameMasterReactor.cpp:204-261: one pass *)
Definition one_pass (target dTtol : R) (s : newton) : pass :=
  let cvd := Cvnew s in
  let unst := if Rlt_dec cvd 0 then true else unstable s in
  let dT0 := newton_step target (Unew s) cvd in
  let dT1 := limited_step target s unst dT0 in
  let '(dT, T) := stay_stable 10 (Tnew s) dT1 in
  check target dTtol cvd dT T s unst.

(** FlameMasterReactor.cpp:204-272: at most n passes; None is the exception *)
Fixpoint iterate (n : nat) (target dTtol : R) (s : newton) : option R :=
  match n with
  | O => None
  | S n' => match one_pass target dTtol s with Return T => Some T | Continue s' => iterate n' target dTtol s' end
  end.

(** FlameMasterReactor.cpp:185-272 [setEnergiesHOrU], 572-574 [SetEnthalpy], 597-599 [SetInternalEnergy]: temperature of the
    reactor afterwards *)
Definition SetEnergy (T0 target dTtol : R) : option R := iterate (Z.to_nat 1000) target dTtol (newton_start T0).
End Energy.

(** ** Packs *)

(** A lane of a pack: energy and heat capacity of its mixture, the target and the variables of the loop,
    FlameMasterReactor.cpp:601-614 *)
Record lane := mkLane { l_u : R -> R; l_cv : R -> R; l_target : R; l_state : newton }.

(** FlameMasterReactor.cpp:636-646: the inner loop for a pack: the steps of the lanes with negative heat capacity are made
    smaller while there are any; returns each step with the new temperature *)
Fixpoint stay_stable_pack (its : nat) (lanes : list (lane * R)) : list (R * R) :=
  let T (p : lane * R) := Tnew (l_state (fst p)) + snd p in
  let negative (p : lane * R) := if Rlt_dec (l_cv (fst p) (T p)) 0 then true else false in
  let smaller (p : lane * R) := if negative p then 1 / 4 * snd p else snd p in
  match its with
  | O => map (fun p => (snd p, T p)) lanes
  | S its' =>
      if existsb negative lanes then
        match its' with
        | O => map (fun p => (smaller p, T p)) lanes
        | S _ => stay_stable_pack its' (map (fun p => (fst p, smaller p)) lanes)
        end
      else map (fun p => (snd p, T p)) lanes
  end.

(** FlameMasterReactor.cpp:652-660: new bounds of a lane ([update_top], [update_bot]); [unstablePhase] is set anew in each pass *)
Definition new_bounds (l : lane) (T : R) : lane :=
  let U := l_u l T in
  let s := l_state l in
  let target := l_target l in
  let top := if Rlt_dec target U then (if Rlt_dec (Utop s) target then true else if Rlt_dec U (Utop s) then true else false) else false in
  let bot := if Rlt_dec U target then (if Rlt_dec target (Ubot s) then true else if Rlt_dec (Ubot s) U then true else false) else false in
  mkLane (l_u l) (l_cv l) target
    (mkNewton T U (l_cv l T) (if top then U else Utop s) (if bot then U else Ubot s) (if top then T else Ttop s)
       (if bot then T else Tbot s) false).

(** FlameMasterReactor.cpp:662-667: has a lane converged? *)
Definition lane_done (dTtol : R) (l : lane) (dT T : R) : bool :=
  let acvd := Rmax (Rabs (Cvnew (l_state l))) (1 / 100000) in
  let denom := Rmax (Rabs (l_target l)) (acvd * dTtol) in
  if Rlt_dec (Rabs (l_target l - l_u l T)) (denom * (1 / 100000 * dTtol)) then true
  else if Rlt_dec (Rabs dT) dTtol then true else false.

(** FlameMasterReactor.cpp:623-632: the limited step of a lane *)
Definition lane_step (l : lane) : R :=
  let s := l_state l in
  limited_step (l_target l) s (if Rlt_dec (Cvnew s) 0 then true else false) (newton_step (l_target l) (Unew s) (Cvnew s)).

(** FlameMasterReactor.cpp:619-670: one pass; temperatures at the return, or the lanes for the next pass *)
Definition pass_pack (dTtol : R) (lanes : list lane) : list R + list lane :=
  let steps := stay_stable_pack 10 (map (fun l => (l, lane_step l)) lanes) in
  let temperatures := map snd steps in
  let all := combine lanes steps in
  if forallb (fun p => if Req_EM_T (l_u (fst p) (snd (snd p))) (l_target (fst p)) then true else false) all then inl temperatures
  else if forallb (fun p => lane_done dTtol (fst p) (fst (snd p)) (snd (snd p))) all then inl temperatures
  else inr (map (fun p => new_bounds (fst p) (snd (snd p))) all).

(** FlameMasterReactor.cpp:619-680 *)
Fixpoint iterate_pack (n : nat) (dTtol : R) (lanes : list lane) : option (list R) :=
  match n with
  | O => None
  | S n' => match pass_pack dTtol lanes with inl T => Some T | inr lanes' => iterate_pack n' dTtol lanes' end
  end.

(** FlameMasterReactor.cpp:601-680 [SetInternalEnergyArray]; a mixture is given by its energy, heat capacity, temperature and
    target *)
Definition SetEnergyArray (mixtures : list ((R -> R) * (R -> R) * R * R)) (dTtol : R) : option (list R) :=
  iterate_pack (Z.to_nat 1000) dTtol
    (map (fun m => let '(u, cv, T0, target) := m in mkLane u cv target (newton_start u cv T0)) mixtures).

(** ** Packs with a mask *)

(** FlameMasterReactor.cpp:682-700: a lane of a pack with its mask; what is read of a lane that is not active is replaced *)
Definition masked_lane (active : bool) (l : lane) : lane :=
  if active then l
  else mkLane (fun _ => 0) (fun _ => 0) 0 (mkNewton 0 0 0 0 0 0 0 false).

(** FlameMasterReactor.cpp:709-719: the limited step of a lane; the heat capacity is 1 where the lane is not active *)
Definition masked_step (p : bool * lane) : R :=
  let '(active, l) := p in
  let s := l_state l in
  let cvd := if active then Cvnew s else 1 in
  limited_step (l_target l) s (if Rlt_dec cvd 0 then true else false) (newton_step (l_target l) (Unew s) cvd).

(** FlameMasterReactor.cpp:724, 726: temperature and heat capacity after a step *)
Definition masked_T (p : bool * lane * R) : R :=
  let '(active, l, dT) := p in if active then Tnew (l_state l) + dT else 300.
Definition masked_cv (p : bool * lane * R) : R := let '(active, l, dT) := p in if active then l_cv l (masked_T p) else 0.

(** FlameMasterReactor.cpp:723-732: the inner loop *)
Fixpoint stay_stable_masked (its : nat) (lanes : list (bool * lane * R)) : list (R * R) :=
  let negative (p : bool * lane * R) := if Rlt_dec (masked_cv p) 0 then true else false in
  let smaller (p : bool * lane * R) := if negative p then 1 / 4 * snd p else snd p in
  match its with
  | O => map (fun p => (snd p, masked_T p)) lanes
  | S its' =>
      if existsb negative lanes then
        match its' with
        | O => map (fun p => (smaller p, masked_T p)) lanes
        | S _ => stay_stable_masked its' (map (fun p => (fst p, smaller p)) lanes)
        end
      else map (fun p => (snd p, masked_T p)) lanes
  end.

(** FlameMasterReactor.cpp:725: energy after a step *)
Definition masked_U (p : bool * lane) (T : R) : R := if fst p then l_u (snd p) T else 0.

(** FlameMasterReactor.cpp:738-746 new bounds *)
Definition masked_bounds (p : bool * lane) (T : R) : bool * lane :=
  let '(active, l) := p in
  let U := masked_U p T in
  let s := l_state l in
  let target := l_target l in
  let top := if Rlt_dec target U then (if Rlt_dec (Utop s) target then true else if Rlt_dec U (Utop s) then true else false) else false in
  let bot := if Rlt_dec U target then (if Rlt_dec target (Ubot s) then true else if Rlt_dec (Ubot s) U then true else false) else false in
  (active, mkLane (l_u l) (l_cv l) target
    (mkNewton T U (if active then l_cv l T else 0) (if top then U else Utop s) (if bot then U else Ubot s) (if top then T else Ttop s)
       (if bot then T else Tbot s) false)).

(** FlameMasterReactor.cpp:748-755 *)
Definition masked_done (dTtol : R) (p : bool * lane) (dT T : R) : bool :=
  let '(active, l) := p in
  let cvd := if active then Cvnew (l_state l) else 1 in
  let Uerr := if active then l_target l - masked_U p T else 0 in
  let acvd := Rmax (Rabs cvd) (1 / 100000) in
  let denom := if active then Rmax (Rabs (l_target l)) (acvd * dTtol) else 1 in
  if negb active then true
  else if Rlt_dec (Rabs Uerr) (denom * (1 / 100000 * dTtol)) then true
  else if Rlt_dec (Rabs dT) dTtol then true else false.

(** FlameMasterReactor.cpp:703-756: one pass *)
Definition pass_masked (dTtol : R) (lanes : list (bool * lane)) : list R + list (bool * lane) :=
  let steps := stay_stable_masked 10 (map (fun p => (p, masked_step p)) lanes) in
  let temperatures := map snd steps in
  let all := combine lanes steps in
  if forallb (fun p => if Req_EM_T (masked_U (fst p) (snd (snd p))) (l_target (snd (fst p))) then true else false) all then inl temperatures
  else if forallb (fun p => masked_done dTtol (fst p) (fst (snd p)) (snd (snd p))) all then inl temperatures
  else inr (map (fun p => masked_bounds (fst p) (snd (snd p))) all).

(** FlameMasterReactor.cpp:703-766 *)
Fixpoint iterate_masked (n : nat) (dTtol : R) (lanes : list (bool * lane)) : option (list R) :=
  match n with
  | O => None
  | S n' => match pass_masked dTtol lanes with inl T => Some T | inr lanes' => iterate_masked n' dTtol lanes' end
  end.

(** FlameMasterReactor.cpp:682-766 [SetInternalEnergyArray] with a mask *)
Definition SetEnergyArrayMasked (mixtures : list (bool * ((R -> R) * (R -> R) * R * R))) (dTtol : R) : option (list R) :=
  iterate_masked (Z.to_nat 1000) dTtol
    (map (fun p => let '(active, (u, cv, T0, target)) := p in
                   (active, masked_lane active (mkLane u cv target (newton_start u cv T0)))) mixtures).
