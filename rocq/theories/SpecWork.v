(** Specification vocabulary for work, energy and angular momentum. Nothing here is used by the
    model. *)
From Coq Require Import List Reals.
From Verif Require Import SpecSixDof.
Import ListNotations.
Local Open Scope R_scope.

(** Energy per unit mass of the relative motion (x, y, z, vx, vy, vz) at mean motion [n]: kinetic
    energy and the tidal and centrifugal potential of Hill's frame. *)
Definition hill_energy (n : R) (s : list R) : R :=
  let c i := nth i s 0 in
  (c 3%nat ^ 2 + c 4%nat ^ 2 + c 5%nat ^ 2) / 2 - 3 / 2 * n^2 * c 0%nat ^ 2 + n^2 * c 2%nat ^ 2 / 2.

(** Work of the constant force (fx, fy, fz) along a displacement. *)
Definition work (f : R * R * R) (s s' : list R) : R :=
  let '(fx, fy, fz) := f in let c i := nth i s' 0 - nth i s 0 in
  fx * c 0%nat + fy * c 1%nat + fz * c 2%nat.

(** Angular momentum in space axes and rotational energy of a state of the six-degrees-of-freedom
    spacecraft with diagonal inertia. *)
Definition momentum (i0 i1 i2 : R) (s : list R) : vec :=
  spin (sd_quat s) (inertia_mul i0 i1 i2 (sd_rate s)).
Definition spin_energy (i0 i1 i2 : R) (s : list R) : R :=
  dot3 (sd_rate s) (inertia_mul i0 i1 i2 (sd_rate s)) / 2.

(** Components of a vector. *)
Definition coord (k : nat) (v : vec) : R :=
  let '(a, b, c) := v in match k with 0%nat => a | 1%nat => b | _ => c end.
