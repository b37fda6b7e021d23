(** Specification vocabulary for the six-degrees-of-freedom spacecraft: vectors,
    quaternions and rotations as in a textbook. Nothing here is used by the model. *)
From Coq Require Import List Reals.
From Verif Require Import PyBase Num Arr BaseModel Utils SixDof XReal SpecCwh.
Import ListNotations.
Local Open Scope R_scope.

Definition vec := (R * R * R)%type.
Definition dot3 (a b : vec) : R :=
  let '(a1, a2, a3) := a in let '(b1, b2, b3) := b in a1 * b1 + a2 * b2 + a3 * b3.
Definition cross (a b : vec) : vec :=
  let '(a1, a2, a3) := a in let '(b1, b2, b3) := b in
  (a2 * b3 - a3 * b2, a3 * b1 - a1 * b3, a1 * b2 - a2 * b1).
Definition add3 (a b : vec) : vec :=
  let '(a1, a2, a3) := a in let '(b1, b2, b3) := b in (a1 + b1, a2 + b2, a3 + b3).
Definition scale3 (k : R) (a : vec) : vec := let '(a1, a2, a3) := a in (k * a1, k * a2, k * a3).

(** Quaternions: vector part and scalar part. *)
Definition quat := (vec * R)%type.
Definition qmul (p q : quat) : quat :=
  (add3 (add3 (scale3 (snd p) (fst q)) (scale3 (snd q) (fst p))) (cross (fst p) (fst q)),
   snd p * snd q - dot3 (fst p) (fst q)).
Definition qscale (k : R) (q : quat) : quat := (scale3 k (fst q), k * snd q).
Definition qnorm2 (q : quat) : R := dot3 (fst q) (fst q) + snd q * snd q.

(** q v q*, the vector part of the product with v as a pure quaternion. *)
Definition qconj (q : quat) : quat := (scale3 (-1) (fst q), snd q).
Definition spin (q : quat) (v : vec) : vec := fst (qmul (qmul q (v, 0)) (qconj q)).

(** The rotation matrix of a unit quaternion (x, y, z, w), applied to a vector. *)
Definition rotate (q : quat) (v : vec) : vec :=
  let '((x, y, z), w) := q in
  let '(v1, v2, v3) := v in
  ((1 - 2 * (y * y + z * z)) * v1 + 2 * (x * y - z * w) * v2 + 2 * (x * z + y * w) * v3,
   2 * (x * y + z * w) * v1 + (1 - 2 * (x * x + z * z)) * v2 + 2 * (y * z - x * w) * v3,
   2 * (x * z - y * w) * v1 + 2 * (y * z + x * w) * v2 + (1 - 2 * (x * x + y * y)) * v3).

(** Embeddings into model values. *)
Definition fin3 (v : vec) : xr * xr * xr := let '(a, b, c) := v in (Fin a, Fin b, Fin c).
Definition fin4 (q : quat) : xr * xr * xr * xr := let '((a, b, c), d) := q in (Fin a, Fin b, Fin c, Fin d).

(** State vector of the spacecraft from position, attitude, velocity and body rates. *)
Definition sd_state (p : vec) (q : quat) (v w : vec) : list R :=
  let '(x, y, z) := p in let '((q1, q2, q3), q4) := q in
  let '(vx, vy, vz) := v in let '(wx, wy, wz) := w in
  [x; y; z; q1; q2; q3; q4; vx; vy; vz; wx; wy; wz].
Definition sd_ctrl (f m : vec) : list R :=
  let '(a, b, c) := f in let '(d, e, g) := m in [a; b; c; d; e; g].
(** Attitude and body rates stored in a state vector. *)
Definition sd_quat (s : list R) : quat := ((nth 3 s 0, nth 4 s 0, nth 5 s 0), nth 6 s 0).
Definition sd_rate (s : list R) : vec := (nth 10 s 0, nth 11 s 0, nth 12 s 0).

(** Attitude of a rotation by [th] about the z axis. *)
Definition qz (th : R) : quat := ((0, 0, sin (th / 2)), cos (th / 2)).

(** Squared norm factor accumulated by Euler steps [hs] at constant squared rate [w2]. *)
Definition growth (w2 : R) (hs : list R) : R := fold_right (fun h acc => (1 + h^2 * w2 / 4) * acc) 1 hs.

(** Actions given as arrays of thrusts and moments, with step sizes. *)
Definition sd_acts (l : list (R * vec * vec)) : list (xr * action xr) :=
  map (fun p => let '(h, f, M) := p in (Fin h, AArr (A1 (map Fin (sd_ctrl f M))))) l.
Definition steps_of (l : list (R * vec * vec)) : list R := map (fun p => fst (fst p)) l.

(** A limit argument given as an array of three numbers. *)
Definition arr3 (v : vec) : numarg xr :=
  let '(a, b, c) := v in NAarr {| nd_shape := [3%nat]; nd_is_f64 := true; nd_data := Some [Fin a; Fin b; Fin c] |}.
(** Configured limit combined with what reaction wheels of inertia [iw] can do. *)
Definition wheel_limit (a : vec) (iw cap i0 i1 i2 : R) : vec :=
  let '(a0, a1, a2) := a in (Rmin a0 (iw * cap / i0), Rmin a1 (iw * cap / i1), Rmin a2 (iw * cap / i2)).
Definition within (lim w : vec) : Prop :=
  let '(l0, l1, l2) := lim in let '(w0, w1, w2) := w in
  - l0 <= w0 <= l0 /\ - l1 <= w1 <= l1 /\ - l2 <= w2 <= l2.
Definition strictly_within (lim w : vec) : Prop :=
  let '(l0, l1, l2) := lim in let '(w0, w1, w2) := w in
  - l0 < w0 < l0 /\ - l1 < w1 < l1 /\ - l2 < w2 < l2.

(** Diagonal inertia times a vector. *)
Definition inertia_mul (i0 i1 i2 : R) (a : vec) : vec := let '(a0, a1, a2) := a in (i0 * a0, i1 * a1, i2 * a2).

(** A limit argument stands for three axis limits: an array of three doubles, or one
    number for all axes. *)
Definition axis_limits {T} {N : Num T} (a : numarg T) (v0 v1 v2 : T) : Prop :=
  a = NAarr {| nd_shape := [3%nat]; nd_is_f64 := true; nd_data := Some [v0; v1; v2] |} \/
  (exists p, a = NAnum p /\ v0 = nmul (pyfloat p) n1 /\ v1 = v0 /\ v2 = v0).

(** Pieces of the equations of motion: thrust in Hill's frame, Euler's gyroscopic terms,
    the Clohessy-Wiltshire acceleration, moments over inertia, and rates that must not
    leave their limits. *)
Definition sd_thrust (body : bool) (q : quat) (f : vec) : vec := if body then spin q f else f.

Definition map3 (g : R -> R) (v : vec) : vec := let '(a, b, c) := v in (g a, g b, g c).
Definition map4 (g : R -> R) (q : quat) : quat := (map3 g (fst q), g (snd q)).
Definition sd_gyro (i0 i1 i2 : R) (w : vec) : vec :=
  let '(wx, wy, wz) := w in ((i1 - i2) * wy * wz / i0, (i2 - i0) * wx * wz / i1, (i0 - i1) * wx * wy / i2).
Definition sd_cw (n : R) (p v : vec) : vec :=
  let '(x, y, z) := p in let '(vx, vy, vz) := v in (3 * n^2 * x + 2 * n * vy, - 2 * n * vx, - n^2 * z).
Definition div3 (v : vec) (i0 i1 i2 : R) : vec := let '(a, b, c) := v in (a / i0, b / i1, c / i2).

Definition stop3 (lim w r : vec) : vec :=
  let '(l0, l1, l2) := lim in let '(w0, w1, w2) := w in let '(r0, r1, r2) := r in
  (stopR (- l0) l0 w0 r0, stopR (- l1) l1 w1 r1, stopR (- l2) l2 w2 r2).
Definition clip3 (lim w : vec) : vec :=
  let '(l0, l1, l2) := lim in let '(w0, w1, w2) := w in (clipR (- l0) l0 w0, clipR (- l1) l1 w1, clipR (- l2) l2 w2).
Definition qadd (p q : quat) : quat := (add3 (fst p) (fst q), snd p + snd q).
Definition clipc (lo hi f : vec) : vec :=
  let '(a0, a1, a2) := lo in let '(b0, b1, b2) := hi in let '(f0, f1, f2) := f in (clipR a0 b0 f0, clipR a1 b1 f1, clipR a2 b2 f2).

(** Parameters of a dynamics object with diagonal inertia i0, i1, i2. *)
Definition sd_ok (m : R) (I : mat3 xr) (i0 i1 i2 : R) : Prop :=
  m <> 0 /\ i0 <> 0 /\ i1 <> 0 /\ i2 <> 0 /\ m00 I = Fin i0 /\ m11 I = Fin i1 /\ m22 I = Fin i2.

Definition neg3 (a : vec) : vec := scale3 (-1) a.

(** A diagonal inertia matrix. *)
Definition diag (i0 i1 i2 : R) : mat3 xr :=
  {| m00 := Fin i0; m01 := Fin 0; m02 := Fin 0; m10 := Fin 0; m11 := Fin i1; m12 := Fin 0; m20 := Fin 0; m21 := Fin 0; m22 := Fin i2 |}.

(** Finite axis limits given as an argument. *)
Definition limit_arg (a : numarg xr) (v : vec) : Prop :=
  let '(v0, v1, v2) := v in axis_limits (N := XR Fin) a (Fin v0) (Fin v1) (Fin v2).

(** A spacecraft built from finite parameters and a finite initial state (exact casts). *)
Definition sixdof_build m I (al vl : numarg xr) iw aw vw thr body n samples method (p : vec) (q : quat) (v w : vec) :=
  let '(x, y, z) := p in let '((q1, q2, q3), q4) := q in
  let '(vx, vy, vz) := v in let '(wx, wy, wz) := w in
  sixdof_spacecraft (N := XR Fin) (Fin m) I al vl (Fin iw) (Fin aw) (Fin vw) (Fin thr) body (Fin n) samples method
    (Fin x) (Fin y) (Fin z) (Fin q1) (Fin q2) (Fin q3) (Fin q4) (Fin vx) (Fin vy) (Fin vz) (Fin wx) (Fin wy) (Fin wz).

(** The same steps and moments, possibly different thrusts. *)
Definition same_but_thrust (l l' : list (R * vec * vec)) : Prop :=
  map (fun p => (fst (fst p), snd p)) l = map (fun p => (fst (fst p), snd p)) l'.

(** Product of a full inertia matrix (given by rows) with a vector. *)
Definition mat_mul (r0 r1 r2 : vec) (a : vec) : vec := (dot3 r0 a, dot3 r1 a, dot3 r2 a).
Definition mat_of (r0 r1 r2 : vec) : mat3 xr :=
  let '(a, b, c) := r0 in let '(d, e, f) := r1 in let '(g, h, i) := r2 in
  {| m00 := Fin a; m01 := Fin b; m02 := Fin c; m10 := Fin d; m11 := Fin e; m12 := Fin f; m20 := Fin g; m21 := Fin h; m22 := Fin i |}.
