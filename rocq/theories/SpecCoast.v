(** Vocabulary of C119: the point masses in binary64 against the damped motion. Nothing here is used by the model. *)
From Coq Require Import ZArith Reals List.
From Flocq Require Import Core.Core IEEE754.BinarySingleNaN.
From Verif Require Import Num Arr BaseModel Float64 SpecCwh SpecGlide SpecRound.
Import List ListNotations.
Local Open Scope R_scope.

(** The motion of one axis (position, velocity) under a list of durations and forces. *)
Fixpoint coast (m c : R) (pv : R * R) (l : list (R * R)) : R * R :=
  match l with
  | [] => pv
  | (h, u) :: l' => coast m c (glide_p m c (fst pv) (snd pv) u h, glide_v m c (snd pv) u h) l'
  end.
(** The saturated forces that a list of binary64 commands puts on axis [i]. *)
Definition axis_force (lo hi : R) (i : nat) (p : f64 * list f64) : R * R :=
  (B2R (fst p), clipR lo hi (B2R (nth i (snd p) (B754_zero false)))).

(** Rounding error of one step: positions up to [B], speeds up to [V], accelerations by the commands up to [A]. *)
Definition coast_round (B H V c A : R) : R :=
  11 * bpow radix2 (-52) * (B + V + H * (V + c * V + A)) + bpow radix2 (-500).
(** Error after [k] steps of at most [H]: rounding plus method, for the velocity and for the position. *)
Definition coast_v (B H V c A : R) (k : nat) : R :=
  INR k * (coast_round B H V c A + c * (c * V + A) * (H * H / 2)).
Definition coast_p (B H V c A : R) (k : nat) : R :=
  INR k * (coast_round B H V c A + (c * V + A) * (H * H / 2) + H * coast_v B H V c A k).

(** Step sizes up to [H] and [k] finite commands. *)
Definition coast_ok (H : R) (k : nat) (a : f64 * list f64) : Prop :=
  within 100 (fst a) /\ 0 <= B2R (fst a) <= H /\ length (snd a) = k /\ Forall (fun f => is_finite f = true) (snd a).
