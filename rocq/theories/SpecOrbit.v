(** Vocabulary of C117: the motion that the Clohessy-Wiltshire equations prescribe under piecewise constant
    thrust, and bounds for the error of replacing it by Euler steps. Nothing here is used by the model. *)
From Coq Require Import ZArith Reals List.
From Flocq Require Import Core.Core IEEE754.BinarySingleNaN.
From Verif Require Import Float64 SpecCwh SpecFlow.
Import List ListNotations.
Local Open Scope R_scope.

(** Thrust command [i], saturated at -1 and 1. *)
Definition force (u : list f64) (i : nat) : R := clipR (-1) 1 (nth i (map B2R u) 0).
(** From the state [s], the motion of a mass [m] during the times and under the commands of [l]. *)
Definition orbit (m n : R) (s : list R) (l : list (f64 * list f64)) : list R :=
  fold_left (fun s p => cw_forced n (force (snd p) 0 / m) (force (snd p) 1 / m) (force (snd p) 2 / m) s (B2R (fst p))) l s.

(** Error of one Euler step of length 1 per unit of the state, and per unit of force, when positions are
    measured on the scale [L]. *)
Definition bend (n L : R) : R := n ^ 2 * (6 + 3 * Rabs n * L + 5 / (Rabs n * L)).
Definition kick (m n L : R) : R := (11 / 2 / L + 5 * Rabs n) / Rabs m.
