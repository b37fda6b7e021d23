(** Specification vocabulary for steady rotation. Nothing here is used by the model. *)
From Coq Require Import List Reals.
From Verif Require Import SpecCwh SpecSixDof.
Import ListNotations.
Local Open Scope R_scope.

Definition norm3 (w : vec) : R := sqrt (dot3 w w).

(** The unit quaternion of a rotation about the axis of [w] with angular speed |w|, after
    the time [t]. *)
Definition qturn (w : vec) (t : R) : quat :=
  (scale3 (sin (norm3 w * t / 2) / norm3 w) w, cos (norm3 w * t / 2)).

(** Coasting: Clohessy-Wiltshire motion of the centre of mass, steady rotation. *)
Definition sd_coast (n : R) (p : vec) (q : quat) (v w : vec) (t : R) : list R :=
  let '(x, y, z) := p in let '(vx, vy, vz) := v in
  match cw_flow n [x; y; z; vx; vy; vz] t with
  | [x'; y'; z'; vx'; vy'; vz'] => sd_state (x', y', z') (qmul q (qturn w t)) (vx', vy', vz') w
  | _ => []
  end.

Definition zero3 : vec := (0, 0, 0).
