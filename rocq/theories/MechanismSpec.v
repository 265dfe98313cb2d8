(** Vocabulary for the properties of the chemistry mechanisms: the atoms of a species as its formula says. *)
From Coq Require Import String Ascii List ZArith QArith Qreals Reals Bool.
Import ListNotations.
Local Open Scope R_scope.

(** The elements of the mechanisms *)
Inductive element := El_C | El_H | El_O | El_N | El_AR | El_HE.

Definition same_element (a b : element) : bool :=
  match a, b with
  | El_C, El_C | El_H, El_H | El_O, El_O | El_N, El_N | El_AR, El_AR | El_HE, El_HE => true
  | _, _ => false
  end.

(** Isomers and excited states are marked in the label of a species: "3XCH2", "1XCH2" and "CH2S" are states of CH2, a Y at
    the end is an excited state, S and P in front of C2H4OH and 1X2 in C2H4O1X2 are positions of a group. *)
Definition formula (label : string) : string :=
  if String.eqb label "3XCH2" then "CH2"
  else if String.eqb label "1XCH2" then "CH2"
  else if String.eqb label "CH2S" then "CH2"
  else if String.eqb label "CH2Y" then "CH2"
  else if String.eqb label "CHY" then "CH"
  else if String.eqb label "OHY" then "OH"
  else if String.eqb label "SC2H4OH" then "C2H4OH"
  else if String.eqb label "PC2H4OH" then "C2H4OH"
  else if String.eqb label "C2H4O1X2" then "C2H4O"
  else label.

Definition letter (c : ascii) : option element :=
  match c with "C" => Some El_C | "H" => Some El_H | "O" => Some El_O | "N" => Some El_N | _ => None end%char.
Definition digit (c : ascii) : option Z :=
  match c with
  | "0" => Some 0 | "1" => Some 1 | "2" => Some 2 | "3" => Some 3 | "4" => Some 4
  | "5" => Some 5 | "6" => Some 6 | "7" => Some 7 | "8" => Some 8 | "9" => Some 9 | _ => None
  end%char%Z.

(** The number of atoms of the element e in a formula: letters of elements, each followed by at most one digit (none means 1) *)
Fixpoint count (e : element) (f : string) : Z :=
  match f with
  | EmptyString => 0
  | String c rest =>
      match letter c with
      | Some x =>
          (if same_element x e
           then match rest with String d _ => match digit d with Some n => n | None => 1 end | EmptyString => 1 end
           else 0) + count e rest
      | None => count e rest
      end
  end%Z.

(** The atoms of a species *)
Definition atoms (e : element) (label : string) : Z :=
  if String.eqb label "AR" then (if same_element e El_AR then 1 else 0)%Z
  else if String.eqb label "HE" then (if same_element e El_HE then 1 else 0)%Z
  else count e (formula label).

(** Sum over two lists *)
Fixpoint dot (a b : list R) : R := match a, b with x :: a', y :: b' => x * y + dot a' b' | _, _ => 0 end.

(** Atoms of the element e per volume in a mixture with concentrations c of the species with these labels; also for rates *)
Definition element_density (labels : list string) (e : element) (c : list R) : R :=
  dot (map (fun s => IZR (atoms e s)) labels) c.

(** Mass per volume *)
Definition mass (weights : list Q) (c : list R) : R := dot (map Q2R weights) c.

(** Concentrations *)
Definition nonnegative (c : list R) : Prop := Forall (fun x => 0 <= x) c.

(** Sum of the absolute values *)
Definition sum_abs (l : list R) : R := fold_right (fun x acc => Rabs x + acc) 0 l.

(** Standard atomic weights *)
Definition elements : list element := [El_C; El_H; El_O; El_N; El_AR; El_HE].
Definition atomic_weight (e : element) : R :=
  match e with El_C => 12.011 | El_H => 1.008 | El_O => 15.999 | El_N => 14.007 | El_AR => 39.948 | El_HE => 4.0026 end.
Definition sum_elements (f : element -> R) : R := fold_right (fun e acc => f e + acc) 0 elements.
Definition molecular_weight (label : string) : R := sum_elements (fun e => IZR (atoms e label) * atomic_weight e).
Definition number_of_atoms (label : string) : R := sum_elements (fun e => IZR (atoms e label)).
