(** Vocabulary of C106 for long runs: positions and velocities measured on different scales. *)
From Coq Require Import ZArith Reals List.
From Flocq Require Import Core.Core IEEE754.BinarySingleNaN.
From Verif Require Import PyBase Num Arr BaseModel SpecBase XReal Float64 SpecRound.
Import List ListNotations.
Local Open Scope R_scope.

(** Positions within [L * E] and velocities within [E] of the exact ones. *)
Definition tracks_scaled (L E : R) (a : list f64) (r : list R) : Prop :=
  tracks (L * E) (firstn 3 a) (firstn 3 r) /\ tracks E (skipn 3 a) (skipn 3 r).

(** Positions up to [L * B] and velocities up to [B]. *)
Definition sized (L B : R) (r : list R) : Prop :=
  Forall (fun t => Rabs t <= L * B) (firstn 3 r) /\ Forall (fun t => Rabs t <= B) (skipn 3 r).

(** The exact run keeps these sizes after every number of steps. *)
Definition stays_scaled (w : world xr) (e : entity xr) (L B : R) (l : list (xr * action xr)) : Prop :=
  forall k e', run (N := XR Fin) w e (firstn k l) = PyBase.Ok e' ->
    exists r, e_state e' = A1 (map Fin r) /\ sized L B r.
