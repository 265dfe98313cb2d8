(** Property C16: conservation on refined hierarchies. *)
From Coq Require Import List ZArith Reals Lia Lra.
From Verif Require Import ArrayModel RefluxModel RefluxSpec RefluxProofs RefluxProofs2 RefluxProofs3 RefluxProofs4 RefluxExamples.
Import ListNotations.
Local Open Scope Z_scope.

(** During any number of coarse steps the conserved quantity on the composite grid changes only by what
    passes the outer faces of the coarsest level, for any number of levels and dimensions, any patches that
    are properly nested, any ratios, any number of subcycles, any split steps and any numeric fluxes, and
    whatever is left in the flux registers from earlier steps. *)
Theorem C16_composite_conservation : forall rank fines cells dx plans data,
  length data = S (length fines) ->
  well_formed rank fines cells -> nested rank fines cells (fun c => In c cells) ->
  Forall (plan_ok rank) plans -> Forall (fun h => h <> 0%R) dx ->
  let data' := fold_left (fun data p => AdvanceLevel rank None fines cells dx p data) plans data in
  total fines cells dx (map scratch data') =
  (total fines cells dx (map scratch data) + sum (map (inflow rank fines cells dx) plans))%R.
Proof.
  intros rank fines cells dx plans. induction plans as [|p plans IH]; intros data Hl Hwf Hn Hp Hdx data'.
  - unfold data'. cbn. lra.
  - inversion Hp as [|? ? Hp1 Hp2]; subst. unfold data'. cbn [fold_left].
    destruct (advance_conserves rank fines None cells dx p data (fun c => In c cells) Hl Hwf Hn (fun c H => H) Hp1 Hdx)
      as (L & T & _).
    assert (length (AdvanceLevel rank None fines cells dx p data) = S (length fines)) as L' by congruence.
    pose proof (IH _ L' Hwf Hn Hp2 Hdx) as IH'. cbv zeta in IH'. rewrite IH', T, sum_cons. lra.
Qed.
Print Assumptions C16_composite_conservation.

(** After a step in which every finer level took part the coarsest level alone holds the composite total:
    the covered cells hold the mean values of the finer levels. *)
Theorem C16_coarse_level_total : forall rank fines own cells dx p data,
  length data = S (length fines) -> well_formed rank fines cells -> length dx = rank -> advances_all fines p ->
  exists this rest, AdvanceLevel rank own fines cells dx p data = this :: rest /\
    total fines cells dx (map scratch (this :: rest)) = (volume dx * sum (map (scratch this) cells))%R.
Proof. exact advance_averaged. Qed.
Print Assumptions C16_coarse_level_total.

(** The register of a level to the coarser one receives exactly the amounts that passed its fine faces, and
    is not touched otherwise (this is what the coarser level relies on). *)
Theorem C16_register_of_fine_level : forall rank ratio fines cells dx p this finer domain,
  length (this :: finer) = S (length fines) -> well_formed rank fines cells -> nested rank fines cells domain ->
  (forall c, In c cells -> domain c) -> plan_ok rank p -> Forall (fun h => h <> 0%R) dx ->
  exists this' finer', AdvanceLevel rank (Some ratio) fines cells dx p (this :: finer) = this' :: finer' /\
  forall d low c, coarse_fine this' d low c =
    (coarse_fine this d low c +
     sum (map (fun x => steps_amount dx (let '(Plan _ steps) := p in steps) d low x)
              (filter (fun x => Z.eqb (nth d x 0%Z) (if low then nth d ratio 0 * nth d c 0 else nth d ratio 0 * (nth d c 0 + 1) - 1)%Z)
                      (children ratio c))))%R.
Proof.
  intros rank ratio fines cells dx p this finer domain Hl Hwf Hn Hd Hp Hdx.
  destruct (advance_conserves rank fines (Some ratio) cells dx p (this :: finer) domain Hl Hwf Hn Hd Hp Hdx) as (L & _ & H).
  destruct (AdvanceLevel rank (Some ratio) fines cells dx p (this :: finer)) as [|this' finer']; [discriminate L|].
  exists this', finer'. split; [reflexivity|]. exact H.
Qed.
Print Assumptions C16_register_of_fine_level.

(** Three levels with subcycling: the hypotheses hold; the composite total consists of the cells 0
    and 3, the fine cells 2 and 5 and six cells of the finest level, and the step
    changes it by flux 2 at the left end minus flux 6 at the right end. *)
Example C16_example :
  length rx_data = S (length [rx_fine1; rx_fine2]) /\
  well_formed 1 [rx_fine1; rx_fine2] rx_cells /\
  nested 1 [rx_fine1; rx_fine2] rx_cells (fun c => In c rx_cells) /\
  plan_ok 1 rx_plan /\ advances_all [rx_fine1; rx_fine2] rx_plan /\
  total [rx_fine1; rx_fine2] rx_cells [1%R] (map scratch rx_data) = (0 + 3 + (1/2) * (1 + 1) + (1/6) * (6 * 2))%R /\
  inflow 1 [rx_fine1; rx_fine2] rx_cells [1%R] rx_plan = (2 - 6)%R.
Proof.
  split; [reflexivity|]. split; [exact rx_well_formed|]. split; [exact rx_nested|].
  split; [cbn; repeat split; repeat constructor|]. split.
  - cbn. repeat (split || constructor || discriminate).
  - split.
    + unfold rx_data, rx_cells. cbn [map total].
      assert (refined rx_fine1 = [[2]; [3]; [4]; [5]]) as -> by reflexivity.
      assert (refined rx_fine2 = [[9]; [10]; [11]; [12]; [13]; [14]]) as -> by reflexivity.
      unfold refined_dx, volume, map2, sum. cbn -[Rplus Rmult Rdiv IZR]. lra.
    + unfold inflow, amount, steps_amount, volume, sum; cbn -[Rplus Rmult Rdiv Rminus IZR]. lra.
Qed.
