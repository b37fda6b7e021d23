(** Specification vocabulary for the Dubins aircraft. Nothing here is used by the model. *)
From Coq Require Import List Reals.
From Verif Require Import PyBase Num Arr BaseModel XReal SpecRk SpecCwh SpecSixDof.
Import ListNotations.
Local Open Scope R_scope.

(** Unit vector with the given heading and flight path angle. The third axis points
    down the flight path angle, as the model's velocity does. *)
Definition nose (heading gamma : R) : vec :=
  (cos heading * cos gamma, sin heading * cos gamma, - sin gamma).

Definition vec_list (v : vec) : list R := let '(a, b, c) := v in [a; b; c].
Definition sub3 (a b : vec) : vec := add3 a (scale3 (-1) b).
Definition norm3 (a : vec) : R := sqrt (dot3 a a).

(** Total duration of a run, counting steps backwards in time positively. *)
Definition duration (acts : list (R * action xr)) : R := fold_right (fun p x => Rabs (fst p) + x) 0 acts.

(** Derivative of the heading of the 3d aircraft: coordinated turn. *)
Definition turn_rate (g v roll : R) : R := g / v * tan roll.

