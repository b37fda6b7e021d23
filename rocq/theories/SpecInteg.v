(** Specification vocabulary for point-mass integrators and the sun. Nothing here is used
    by the model. *)
From Coq Require Import String List Bool Arith ZArith Reals.
From Verif Require Import PyBase Num Arr BaseModel XReal.
Import ListNotations.
Local Open Scope R_scope.

(** The dimensions offered: name and number of axes. *)
Definition offered (mode : string) (k : nat) : Prop :=
  (mode = "1d"%string /\ k = 1%nat) \/ (mode = "2d"%string /\ k = 2%nat) \/ (mode = "3d"%string /\ k = 3%nat).

(** State: positions, then velocities, one of each per axis. *)
Definition point_state (ps vs : list R) : arr xr := A1 (map Fin (ps ++ vs)).

(** Acceleration of one axis: force u, mass m, damping c. *)
Definition axis_accel (m c v u : R) : R := - c * v + u / m.

(** No thrust: no action given, or an array of zeros. *)
Definition no_thrust (k : nat) (a : action xr) : Prop :=
  a = ANone \/ a = AArr (A1 (map Fin (repeat 0 k))).

(** Two lists of equal length related element by element by |a| <= |b|. *)
Definition no_faster (vs' vs : list R) : Prop := Forall2 (fun a b => Rabs a <= Rabs b) vs' vs.
