(** Vocabulary of C116: rates computed in single precision. *)
From Coq Require Import ZArith Reals List.
From Flocq Require Import Core.Core IEEE754.BinarySingleNaN.
From Verif Require Import Num Arr BaseModel Float64 SpecCwh SpecSixDof SpecRound SpecFly.
Import List ListNotations.
Local Open Scope R_scope.

(** Error of a step that should give [x + h * t], when the rate is the sum of terms of total size [g] and is only
    known to single precision (22 bits), while the sum itself is precise to 46 bits. *)
Definition single_error (x h g : R) : R :=
  bpow radix2 (-46) * Rabs x + bpow radix2 (-22) * (Rabs h * g) + bpow radix2 (-140) * (1 + Rabs h).

(** [a] is finite and [x + h * t] up to that error. *)
Definition follows (a : f64) (x h t g : R) : Prop :=
  is_finite a = true /\ Rabs (B2R a - (x + h * t)) <= single_error x h g.

(** One step of size [h] of a spacecraft in the orbital plane, seen from a chief on a circular orbit of mean motion
    [n]: mass [m], moment of inertia [i], thrust (fx, fy) in body axes, moment [mz]; the rotation rate is kept within
    [vel] and its change within [acc]. *)
Definition rot2d_follows (m i acc vel n h : R) (s f : list R) (new : list f64) : Prop :=
  match s, f, new with
  | [x; y; th; vx; vy; wz], [fx; fy; mz], [x'; y'; th'; vx'; vy'; wz'] =>
      follows x' x h vx (Rabs vx) /\
      follows y' y h vy (Rabs vy) /\
      (is_finite th' = true /\ angle_near (bpow radix2 (-44) + single_error th h (Rabs wz)) (B2R th') (th + h * clipR (- vel) vel wz)) /\
      follows vx' vx h (3 * n ^ 2 * x + 2 * n * vy + (cos th * fx - sin th * fy) / m)
        (3 * n ^ 2 * Rabs x + 2 * Rabs n * Rabs vy + (Rabs fx + Rabs fy) / Rabs m) /\
      follows vy' vy h (- 2 * n * vx + (sin th * fx + cos th * fy) / m) (2 * Rabs n * Rabs vx + (Rabs fx + Rabs fy) / Rabs m) /\
      (is_finite wz' = true /\
       Rabs (B2R wz' - clipR (- vel) vel (wz + h * stopR (- vel) vel wz (clipR (- acc) acc (mz / i)))) <=
         single_error wz h (Rabs mz / Rabs i))
  | _, _, _ => False
  end.

(** The same for a rate [t] of change of a rotation rate [w] that is kept within [v]. *)
Definition turns (a : f64) (w h v t g : R) : Prop :=
  is_finite a = true /\ Rabs (B2R a - clipR (- v) v (w + h * stopR (- v) v w t)) <= single_error w h g.

(** One step of size [h] of a spacecraft with attitude: mass [m], principal moments of inertia [i0], [i1], [i2], limits [v0],
    [v1], [v2] of the rotation rates, mean motion [n] of the chief; thrust in the axes of the body, turned by the attitude
    quaternion, or in those of the orbit. *)
Definition sixdof_follows (body : bool) (m i0 i1 i2 v0 v1 v2 n h : R) (s f : list R) (new : list f64) : Prop :=
  match s, f, new with
  | [x; y; z; q1; q2; q3; q4; vx; vy; vz; wx; wy; wz], [fx; fy; fz; mx; my; mz],
    [x'; y'; z'; q1'; q2'; q3'; q4'; vx'; vy'; vz'; wx'; wy'; wz'] =>
      let '(tx, ty, tz) := if body then spin ((q1, q2, q3), q4) (fx, fy, fz) else (fx, fy, fz) in
      let F := (if body then (Rabs q1 + Rabs q2 + Rabs q3 + Rabs q4) ^ 2 else 1) * (Rabs fx + Rabs fy + Rabs fz) / Rabs m in
      (follows x' x h vx (Rabs vx) /\ follows y' y h vy (Rabs vy) /\ follows z' z h vz (Rabs vz)) /\
      (follows q1' q1 h ((q4 * wx - q3 * wy + q2 * wz) / 2) ((Rabs q4 * Rabs wx + Rabs q3 * Rabs wy + Rabs q2 * Rabs wz) / 2) /\
       follows q2' q2 h ((q3 * wx + q4 * wy - q1 * wz) / 2) ((Rabs q3 * Rabs wx + Rabs q4 * Rabs wy + Rabs q1 * Rabs wz) / 2) /\
       follows q3' q3 h ((- q2 * wx + q1 * wy + q4 * wz) / 2) ((Rabs q2 * Rabs wx + Rabs q1 * Rabs wy + Rabs q4 * Rabs wz) / 2) /\
       follows q4' q4 h ((- q1 * wx - q2 * wy - q3 * wz) / 2) ((Rabs q1 * Rabs wx + Rabs q2 * Rabs wy + Rabs q3 * Rabs wz) / 2)) /\
      (follows vx' vx h (3 * n ^ 2 * x + 2 * n * vy + tx / m) (3 * n ^ 2 * Rabs x + 2 * Rabs n * Rabs vy + F) /\
       follows vy' vy h (- 2 * n * vx + ty / m) (2 * Rabs n * Rabs vx + F) /\
       follows vz' vz h (- n ^ 2 * z + tz / m) (n ^ 2 * Rabs z + F)) /\
      (turns wx' wx h v0 (((i1 - i2) * wy * wz + mx) / i0) (((Rabs i1 + Rabs i2) * Rabs wy * Rabs wz + Rabs mx) / Rabs i0) /\
       turns wy' wy h v1 (((i2 - i0) * wx * wz + my) / i1) (((Rabs i2 + Rabs i0) * Rabs wx * Rabs wz + Rabs my) / Rabs i1) /\
       turns wz' wz h v2 (((i0 - i1) * wx * wy + mz) / i2) (((Rabs i0 + Rabs i1) * Rabs wx * Rabs wy + Rabs mz) / Rabs i2))
  | _, _, _ => False
  end.
