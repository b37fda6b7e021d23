(** Properties C25-C31, C71: the six-degrees-of-freedom spacecraft. *)
From Coq Require Import String List Bool Arith ZArith Lia Reals Lra.
From Coquelicot Require Import Coquelicot.
From Verif Require Import PyBase Num Arr BaseModel Spec SpecBase SpecWrap XReal NumOrdLemmas Cwh Rot2d Utils SixDof SpecRk
  SpecCwh SpecSixDof XTac Rot2dLemmas SixDofLemmas SixDofProps.
Import List ListNotations.
Local Open Scope R_scope.

(** Exact arithmetic. Theorems with a quantified [rd] hold for every rounding function
    used by the float32 casts, the others for exact casts. *)
Local Hint Extern 0 (Num xr) => match goal with
  | r : R -> R |- _ => exact (XR (fun x => Fin (r x))) | _ => exact (XR Fin) end : typeclass_instances.

(** * C25 Quaternion kinematics *)

(** All thirteen equations of motion, with [lim] the rate limits: q' = 1/2 q (w, 0). *)
Theorem C25_equations :
  forall (rd : R -> R) (m : R) (I : mat3 xr) (i0 i1 i2 l0 l1 l2 n : R) body samples method d,
    m <> 0 -> i0 <> 0 -> i1 <> 0 -> i2 <> 0 -> m00 I = Fin i0 -> m11 I = Fin i1 -> m22 I = Fin i2 ->
    sixdof_dyn (Fin m) I (Fin l0, Fin l1, Fin l2) (Fin n) body samples method = Ok d ->
    forall t p q v w f M,
      compute_state_dot d t (A1 (map Fin (sd_state p q v w))) (A1 (map Fin (sd_ctrl f M))) =
      Ok (A1 (map Fin (sd_state
        (map3 rd v)
        (map4 rd (qscale (1/2) (qmul q (w, 0))))
        (add3 (map3 rd (sd_cw n p v)) (scale3 (/ m) (if body then spin q f else f)))
        (stop3 (l0, l1, l2) w (add3 (map3 rd (sd_gyro i0 i1 i2 w)) (div3 M i0 i1 i2)))))).
Proof. exact sixdof_csd. Qed.
Print Assumptions C25_equations.

(** The quaternion derivative is orthogonal to the quaternion. *)
Theorem C25_orthogonal :
  forall m I i0 i1 i2 lim n body samples method d, sd_ok m I i0 i1 i2 ->
    sixdof_dyn (Fin m) I (fin3 lim) (Fin n) body samples method = Ok d ->
    forall t p q v w f M, exists dp dq dv dw,
      compute_state_dot d t (A1 (map Fin (sd_state p q v w))) (A1 (map Fin (sd_ctrl f M))) =
        Ok (A1 (map Fin (sd_state dp dq dv dw))) /\
      dq = qscale (1/2) (qmul q (w, 0)) /\ dot3 (fst q) (fst dq) + snd q * snd dq = 0.
Proof. exact sixdof_orthogonal. Qed.
Print Assumptions C25_orthogonal.

(** Exact solutions keep the norm of the quaternion. *)
Theorem C25_exact_norm :
  forall m I i0 i1 i2 lim n body samples method d u sol, sd_ok m I i0 i1 i2 ->
    sixdof_dyn (Fin m) I (fin3 lim) (Fin n) body samples method = Ok d -> length u = 6%nat ->
    length (sol 0) = 13%nat -> solves d (A1 (map Fin u)) sol ->
    forall t, qnorm2 (sd_quat (sol t)) = qnorm2 (sd_quat (sol 0)).
Proof. exact sixdof_exact_norm. Qed.
Print Assumptions C25_exact_norm.

(** Euler steps of the entity: the squared norm is multiplied by exactly 1 + h^2|w|^2/4. *)
Theorem C25_euler_norm :
  forall (w0 : world xr) m I i0 i1 i2 A V al vl iw aw vw thr body n samples p0 q0 v0 w0' e,
    sd_ok m I i0 i1 i2 -> (samples <= 0)%Z -> limit_arg A al -> limit_arg V vl ->
    sixdof_build m I A V iw aw vw thr body n samples "Euler" p0 q0 v0 w0' = Ok e ->
    forall l, exists e' p q v w, run w0 e (sd_acts l) = Ok e' /\ e_state e' = A1 (map Fin (sd_state p q v w)) /\
    forall h f M, exists p' q' v' w',
      let o := entity_step w0 e' (Fin h) (AArr (A1 (map Fin (sd_ctrl f M)))) in
      o_res o = Ok tt /\ e_state (o_entity o) = A1 (map Fin (sd_state p' q' v' w')) /\
      qnorm2 q' = qnorm2 q * (1 + h^2 * dot3 w w / 4).
Proof. exact sixdof_euler_norm. Qed.
Print Assumptions C25_euler_norm.

(** Whole Euler runs: the norm never decreases, its growth is bounded through the rate
    limits, and known exactly for equal moments of inertia without moments. *)
Theorem C25_run_norm :
  forall (w0 : world xr) m I i0 i1 i2 A V al vl iw aw vw thr body n samples p q v w e l,
    sd_ok m I i0 i1 i2 -> (samples <= 0)%Z -> limit_arg A al -> limit_arg V vl ->
    sixdof_build m I A V iw aw vw thr body n samples "Euler" p q v w = Ok e ->
    let lim := wheel_limit vl iw vw i0 i1 i2 in
    exists e' p' q' v' w', run w0 e (sd_acts l) = Ok e' /\
      e_state e' = A1 (map Fin (sd_state p' q' v' w')) /\
      qnorm2 q <= qnorm2 q' /\
      (within lim w -> within lim w' /\ qnorm2 q' <= qnorm2 q * growth (dot3 lim lim) (steps_of l)) /\
      (i0 = i1 -> i1 = i2 -> within lim w -> within al (0, 0, 0) -> 0 < i0 -> 0 <= iw * aw ->
       (forall h f M, In (h, f, M) l -> M = (0, 0, 0)) ->
       w' = w /\ qnorm2 q' = qnorm2 q * growth (dot3 w w) (steps_of l)).
Proof. exact sixdof_craft_run. Qed.
Print Assumptions C25_run_norm.

(** Rate 1 about z, two steps of one second: the squared norm grows from 1 to 25/16. *)
Example C25_example :
  forall w0 : world xr, exists e e',
    sixdof_build 2 (diag 1 1 1) (NAnum (PyInt 1)) (NAnum (PyInt 1)) 10 10 10 1 true 1 0 "Euler"
      (0, 0, 0) ((0, 0, 0), 1) (0, 0, 0) (0, 0, 1) = Ok e /\
    run w0 e (sd_acts [(1, (0, 0, 0), (0, 0, 0)); (1, (1, 0, 0), (0, 0, 0))]) = Ok e' /\
    exists p q v w, e_state e' = A1 (map Fin (sd_state p q v w)) /\ qnorm2 q = 25 / 16.
Proof. exact sixdof_norm_example. Qed.

(** * C26 Body thrust rotation *)

(** apply_quat is |q|^2 times the rotation of the unit quaternion scipy's from_quat makes
    of q; from_quat rejects the zero quaternion, which apply_quat maps everything to 0. *)
Theorem C26_rotation :
  forall q : quat,
    (q = ((0, 0, 0), 0) -> from_quat (Fin 0) (Fin 0) (Fin 0) (Fin 0) = Err ValueError) /\
    (q <> ((0, 0, 0), 0) -> exists u, qnorm2 u = 1 /\
      (let '((a, b, c), d) := q in from_quat (Fin a) (Fin b) (Fin c) (Fin d)) = Ok (fin4 u) /\
      forall x, apply_quat (fin3 x) (fin4 q) = fin3 (scale3 (qnorm2 q) (rotate u x))).
Proof. exact from_quat_spec. Qed.
Print Assumptions C26_rotation.

Theorem C26_zero : forall x : vec, apply_quat (fin3 x) (fin4 ((0, 0, 0), 0)) = fin3 (0, 0, 0).
Proof. exact (apply_quat_zero Fin). Qed.
Print Assumptions C26_zero.

Theorem C26_laws :
  forall (q : quat) (x y X Y : vec),
    apply_quat (fin3 x) (fin4 q) = fin3 X -> apply_quat (fin3 y) (fin4 q) = fin3 Y ->
    (forall a b, apply_quat (fin3 (add3 (scale3 a x) (scale3 b y))) (fin4 q) = fin3 (add3 (scale3 a X) (scale3 b Y))) /\
    (qnorm2 q = 1 -> dot3 X Y = dot3 x y /\ apply_quat (fin3 (cross x y)) (fin4 q) = fin3 (cross X Y)) /\
    apply_quat (fin3 x) (fin4 (qscale (-1) q)) = fin3 X /\
    (forall p, apply_quat (fin3 X) (fin4 p) = apply_quat (fin3 x) (fin4 (qmul p q))).
Proof. exact (apply_quat_laws Fin). Qed.
Print Assumptions C26_laws.

Example C26_example :
  apply_quat (fin3 (1, 0, 0)) (fin4 ((0, 0, 1), 1)) = fin3 (0, 2, 0) /\
  rotate (qz (PI / 2)) (1, 0, 0) = (0, 1, 0) /\ qnorm2 (qz (PI / 2)) = 1.
Proof. exact apply_quat_example. Qed.

(** * C27 Default attitude *)

(** The spacecraft built from the defaults has no orientation (scipy raises ValueError) and
    no thrust ever changes any of its states. *)
Theorem C27_default_attitude_refuted :
  forall w0 : world xr, exists e,
    sixdof_spacecraft (Fin 12) SD_INERTIA (NAnum (PyFloat SD_ANG_ACC_LIMIT)) (NAnum (PyFloat SD_ANG_VEL_LIMIT))
      SD_INERTIA_WHEEL SD_ACC_LIMIT_WHEEL SD_VEL_LIMIT_WHEEL SD_THRUST_LIMIT true (Fin (1027/1000000)) 0 "Euler"
      (Fin 0) (Fin 0) (Fin 0) (Fin 0) (Fin 0) (Fin 0) (Fin 0) (Fin 0) (Fin 0) (Fin 0) (Fin 0) (Fin 0) (Fin 0) = Ok e /\
    sixdof_quaternion e = Err ValueError /\
    forall l l', same_but_thrust l l' -> exists e1 e2,
      run w0 e (sd_acts l) = Ok e1 /\ run w0 e (sd_acts l') = Ok e2 /\
      e_state e1 = e_state e2 /\ sixdof_quaternion e1 = Err ValueError.
Proof. exact sixdof_default_refuted. Qed.
Print Assumptions C27_default_attitude_refuted.

(** The same for every zero quaternion, whatever the other parameters. *)
Theorem C27_zero_attitude_inert :
  forall (w0 : world xr) m I i0 i1 i2 A V al vl iw aw vw thr n samples p v w,
    sd_ok m I i0 i1 i2 -> (samples <= 0)%Z -> limit_arg A al -> limit_arg V vl ->
    exists e, sixdof_build m I A V iw aw vw thr true n samples "Euler" p ((0, 0, 0), 0) v w = Ok e /\
      sixdof_quaternion e = Err ValueError /\
      forall l l', same_but_thrust l l' -> exists e1 e2,
        run w0 e (sd_acts l) = Ok e1 /\ run w0 e (sd_acts l') = Ok e2 /\
        e_state e1 = e_state e2 /\ sixdof_quaternion e1 = Err ValueError.
Proof. exact sixdof_zero_attitude. Qed.
Print Assumptions C27_zero_attitude_inert.

(** With the identity attitude thrust accelerates by f / m. *)
Theorem C27_identity_attitude :
  forall m I i0 i1 i2 lim n body samples method d, sd_ok m I i0 i1 i2 ->
    sixdof_dyn (Fin m) I (fin3 lim) (Fin n) body samples method = Ok d ->
    forall t p v w f M, exists r,
      compute_state_dot d t (A1 (map Fin (sd_state p ((0, 0, 0), 1) v w))) (A1 (map Fin (sd_ctrl f M))) =
      Ok (A1 (map Fin (sd_state v (qscale (1/2) (w, 0)) (add3 (sd_cw n p v) (scale3 (/ m) f)) r))).
Proof. exact sixdof_identity. Qed.
Print Assumptions C27_identity_attitude.

(** * C28 Rigid body invariants *)

(** Below the rate limits the rates obey Euler's equations I w' + w x (I w) = M; without
    moment the rotational energy and the angular momentum have zero derivative. *)
Theorem C28_euler_equations :
  forall m I i0 i1 i2 lim n body samples method d, sd_ok m I i0 i1 i2 ->
    sixdof_dyn (Fin m) I (fin3 lim) (Fin n) body samples method = Ok d ->
    forall t p q v w f M, strictly_within lim w ->
    exists dp dq dv r,
      compute_state_dot d t (A1 (map Fin (sd_state p q v w))) (A1 (map Fin (sd_ctrl f M))) =
        Ok (A1 (map Fin (sd_state dp dq dv r))) /\
      add3 (inertia_mul i0 i1 i2 r) (cross w (inertia_mul i0 i1 i2 w)) = M /\
      (M = (0, 0, 0) ->
        dot3 (inertia_mul i0 i1 i2 w) r = 0 /\ dot3 (inertia_mul i0 i1 i2 w) (inertia_mul i0 i1 i2 r) = 0).
Proof. exact sixdof_rigid. Qed.
Print Assumptions C28_euler_equations.

(** So exact torque-free solutions below the limits conserve both. *)
Theorem C28_conserved :
  forall m I i0 i1 i2 lim n body samples method d f sol, sd_ok m I i0 i1 i2 ->
    sixdof_dyn (Fin m) I (fin3 lim) (Fin n) body samples method = Ok d ->
    length (sol 0) = 13%nat -> solves d (A1 (map Fin (sd_ctrl f (0, 0, 0)))) sol ->
    (forall t, strictly_within lim (sd_rate (sol t))) ->
    forall t, let W t := sd_rate (sol t) in
      dot3 (W t) (inertia_mul i0 i1 i2 (W t)) = dot3 (W 0) (inertia_mul i0 i1 i2 (W 0)) /\
      dot3 (inertia_mul i0 i1 i2 (W t)) (inertia_mul i0 i1 i2 (W t)) =
      dot3 (inertia_mul i0 i1 i2 (W 0)) (inertia_mul i0 i1 i2 (W 0)).
Proof. exact sixdof_rigid_exact. Qed.
Print Assumptions C28_conserved.

(** Moments of inertia 1, 2, 3 and rates 1: w' = (-1, 1, -1/3); 1*1*(-1) + 2*1*1 + 3*1*(-1/3) = 0. *)
Example C28_example :
  exists d, sixdof_dyn (Fin 1) (diag 1 2 3) (fin3 (9, 9, 9)) (Fin 0) true 0 "Euler" = Ok d /\
    compute_state_dot d (Fin 0) (A1 (map Fin (sd_state (0,0,0) ((0,0,0),1) (0,0,0) (1,1,1)))) (A1 (map Fin (sd_ctrl (0,0,0) (0,0,0)))) =
    Ok (A1 (map Fin (sd_state (0,0,0) ((1/2,1/2,1/2),0) (0,0,0) (-1, 1, -1/3)))).
Proof. exact sixdof_rigid_example. Qed.

(** * C29 Angular acceleration limit *)

(** With unequal moments of inertia the gyroscopic terms are not limited. *)
Theorem C29_acceleration_limit_refuted :
  forall w0 : world xr, exists e lim,
    sixdof_build 1 (diag 1 3 1) (NAnum (PyFloat (Fin (1/10)))) (NAnum (PyInt 1)) 10 10 10 1 true 0 0 "Euler"
      (0, 0, 0) ((0, 0, 0), 1) (0, 0, 0) (0, 1/2, 1/2) = Ok e /\
    lim = Rmin (1/10) (10 * 10 / 1) /\
    let o := entity_step w0 e (Fin 1) (AArr (A1 (map Fin [0; 0; 0; 0; 0; 0]))) in
    o_res o = Ok tt /\ bnth (e_sdot (o_entity o)) 10 = Some (Fin (1/2)) /\ lim < 1/2.
Proof. exact sixdof_acc_refuted. Qed.
Print Assumptions C29_acceleration_limit_refuted.

(** With equal moments of inertia it holds after any Euler steps. *)
Theorem C29_equal_inertia :
  forall (w0 : world xr) m I i A V al vl iw aw vw thr body n samples p0 q0 v0 w0' e,
    sd_ok m I i i i -> 0 < i -> (samples <= 0)%Z -> 0 <= iw -> 0 <= aw -> within al (0, 0, 0) ->
    limit_arg A al -> limit_arg V vl ->
    sixdof_build m I A V iw aw vw thr body n samples "Euler" p0 q0 v0 w0' = Ok e ->
    forall l, exists e', run w0 e (sd_acts l) = Ok e' /\
    forall h f M,
      let o := entity_step w0 e' (Fin h) (AArr (A1 (map Fin (sd_ctrl f M)))) in
      o_res o = Ok tt /\
      exists p' q' v' r, e_sdot (o_entity o) = A1 (map Fin (sd_state p' q' v' r)) /\
        within (wheel_limit al iw aw i i i) r.
Proof. exact sixdof_acc_symmetric. Qed.
Print Assumptions C29_equal_inertia.

(** * C30 Agreement between the models *)

(** In-plane motion: the rotational spacecraft with heading th and the SixDOF spacecraft
    with attitude qz th. The quaternion derivative is the chain rule applied to qz. *)
Theorem C30_sixdof_rotation2d :
  forall (w0 : world xr) m I i0 i1 i2 l0 l1 vel acc n samples samples' method method' jax d6 d2,
    sd_ok m I i0 i1 i2 -> 0 <= acc ->
    sixdof_dyn (Fin m) I (fin3 (l0, l1, vel)) (Fin n) true samples method = Ok d6 ->
    rot2d_dyn w0 (Fin m) (Fin i2) (Fin acc) (Fin vel) (Fin n) samples' method' jax = Ok d2 ->
    forall t x y th vx vy wz fx fy M, - vel <= wz <= vel -> - acc <= M / i2 <= acc ->
    exists dx dy dth ax ay az,
      compute_state_dot d2 t (A1 (map Fin [x; y; th; vx; vy; wz])) (A1 (map Fin [fx; fy; M])) =
        Ok (A1 (map Fin [dx; dy; dth; ax; ay; az])) /\
      compute_state_dot d6 t (A1 (map Fin (sd_state (x, y, 0) (qz th) (vx, vy, 0) (0, 0, wz))))
          (A1 (map Fin (sd_ctrl (fx, fy, 0) (0, 0, M)))) =
        Ok (A1 (map Fin (sd_state (dx, dy, 0) (qscale dth ((0, 0, cos (th / 2) / 2), - sin (th / 2) / 2))
                           (ax, ay, 0) (0, 0, az)))).
Proof. exact sixdof_vs_rot2d. Qed.
Print Assumptions C30_sixdof_rotation2d.

(** Thrust in Hill's frame: translation is that of the CWH spacecraft. *)
Theorem C30_sixdof_cwh :
  forall m I i0 i1 i2 lim n samples samples' method method' d6 d1, sd_ok m I i0 i1 i2 ->
    sixdof_dyn (Fin m) I (fin3 lim) (Fin n) false samples method = Ok d6 ->
    cwh_dyn (Fin m) (Fin n) samples' method' = Ok d1 ->
    forall t x y z q vx vy vz w fx fy fz M, exists dx dy dz ax ay az dq r,
      compute_state_dot d1 t (A1 (map Fin [x; y; z; vx; vy; vz])) (A1 (map Fin [fx; fy; fz])) =
        Ok (A1 (map Fin [dx; dy; dz; ax; ay; az])) /\
      compute_state_dot d6 t (A1 (map Fin (sd_state (x, y, z) q (vx, vy, vz) w))) (A1 (map Fin (sd_ctrl (fx, fy, fz) M))) =
        Ok (A1 (map Fin (sd_state (dx, dy, dz) dq (ax, ay, az) r))).
Proof. exact sixdof_vs_cwh. Qed.
Print Assumptions C30_sixdof_cwh.

(** The rotational spacecraft with heading 0: translation is that of the CWH spacecraft. *)
Theorem C30_rotation2d_cwh :
  forall (w0 : world xr) m inertia acc vel n samples samples' method method' jax d2 d1,
    m <> 0 -> inertia <> 0 ->
    rot2d_dyn w0 (Fin m) (Fin inertia) (Fin acc) (Fin vel) (Fin n) samples method jax = Ok d2 ->
    cwh_dyn (Fin m) (Fin n) samples' method' = Ok d1 ->
    forall t x y vx vy wz fx fy M, exists dx dy ax ay dth az,
      compute_state_dot d1 t (A1 (map Fin [x; y; 0; vx; vy; 0])) (A1 (map Fin [fx; fy; 0])) =
        Ok (A1 (map Fin [dx; dy; 0; ax; ay; 0])) /\
      compute_state_dot d2 t (A1 (map Fin [x; y; 0; vx; vy; wz])) (A1 (map Fin [fx; fy; M])) =
        Ok (A1 (map Fin [dx; dy; dth; ax; ay; az])).
Proof. exact rot2d_vs_cwh. Qed.
Print Assumptions C30_rotation2d_cwh.

(** The premises are satisfiable: all three dynamics exist for these parameters. *)
Example C30_example :
  forall w0 : world xr, exists d6 d2 d1,
    sd_ok 12 (diag 1 2 3) 1 2 3 /\
    sixdof_dyn (Fin 12) (diag 1 2 3) (fin3 (1, 1, 1)) (Fin (1/1000)) true 0 "RK45" = Ok d6 /\
    rot2d_dyn w0 (Fin 12) (Fin 3) (Fin 1) (Fin 1) (Fin (1/1000)) 0 "RK45" false = Ok d2 /\
    cwh_dyn (Fin 12) (Fin (1/1000)) 0 "RK45" = Ok d1.
Proof. exact agreement_example. Qed.

(** * C31 SixDOF limits *)

(** After any steps, any method and solver, in exact and binary64 arithmetic. *)
Theorem C31_rate_limits :
  forall T (N : Num T) (O : NumOrd T) (P : NumNeg T) (w : world T) m I al vl v0 v1 v2 iw aw vw thr body n samples method
         x y z q1 q2 q3 q4 vx vy vz wx wy wz e acts e',
    axis_limits vl v0 v1 v2 ->
    sixdof_spacecraft m I al vl iw aw vw thr body n samples method x y z q1 q2 q3 q4 vx vy vz wx wy wz = Ok e ->
    acts <> [] -> run w e acts = Ok e' ->
    forall k lim il, In (k, lim, il) [(10, v0, m00 I); (11, v1, m11 I); (12, v2, m22 I)]%nat ->
      (forall a b, In (a, b) [(v0, m00 I); (v1, m11 I); (v2, m22 I)] -> nleb n0 a = true /\ nleb n0 (ndiv (nmul iw vw) b) = true) ->
      forall r, bnth (e_state e') k = Some r -> nisnan r = true \/
        (let q := ndiv (nmul iw vw) il in
         nleb (nneg lim) r = true /\ nleb r lim = true /\ nleb (nneg q) r = true /\ nleb r q = true).
Proof. exact (fun T N O P => @sixdof_rate_bounds T N O P). Qed.
Print Assumptions C31_rate_limits.

(** The limits in effect: minimum of configured and wheel limit; symmetric controls. *)
Theorem C31_limits :
  forall m I i0 i1 i2 A V al vl iw aw vw thr body n samples method p q v w e,
    sd_ok m I i0 i1 i2 -> limit_arg A al -> limit_arg V vl ->
    sixdof_build m I A V iw aw vw thr body n samples method p q v w = Ok e ->
    let acc := wheel_limit al iw aw i0 i1 i2 in
    sixdof_dyn (Fin m) I (fin3 (wheel_limit vl iw vw i0 i1 i2)) (Fin n) body samples method = Ok (e_dyn e) /\
    e_cmax e = A1 (map Fin (sd_ctrl (thr, thr, thr) (inertia_mul i0 i1 i2 acc))) /\
    e_cmin e = A1 (map Fin (sd_ctrl (neg3 (thr, thr, thr)) (neg3 (inertia_mul i0 i1 i2 acc)))) /\
    e_state e = A1 (map Fin (sd_state p q v w)).
Proof. exact sixdof_limits. Qed.
Print Assumptions C31_limits.

(** The default limits: the wheel would allow 0.41 rad/s and 0.13 rad/s^2, the configured
    0.034907 and 0.017453 are smaller and in effect. *)
Example C31_example :
  let i := 573/10000 in let iw := 41/1000000 in
  wheel_limit (34907/1000000, 34907/1000000, 34907/1000000) iw 576 i i i = (34907/1000000, 34907/1000000, 34907/1000000) /\
  wheel_limit (17453/1000000, 17453/1000000, 17453/1000000) iw (1813/10) i i i = (17453/1000000, 17453/1000000, 17453/1000000) /\
  wheel_limit (1, 1, 1) iw 576 i i i = (iw * 576 / i, iw * 576 / i, iw * 576 / i).
Proof. exact default_limits_example. Qed.

(** * C71 Full inertia matrices *)

(** Off-diagonal entries of the inertia matrix are ignored: Euler's equations fail. *)
Theorem C71_full_inertia_refuted :
  exists r0 r1 r2 d dp dq dv r,
    sixdof_dyn (Fin 1) (mat_of r0 r1 r2) (fin3 (1, 1, 1)) (Fin 0) true 0 "Euler" = Ok d /\
    compute_state_dot d (Fin 0) (A1 (map Fin (sd_state (0,0,0) ((0,0,0),1) (0,0,0) (0,0,0)))) (A1 (map Fin (sd_ctrl (0,0,0) (1,0,0)))) =
      Ok (A1 (map Fin (sd_state dp dq dv r))) /\
    add3 (mat_mul r0 r1 r2 r) (cross (0,0,0) (mat_mul r0 r1 r2 (0,0,0))) <> (1, 0, 0).
Proof. exact sixdof_full_inertia_refuted. Qed.
Print Assumptions C71_full_inertia_refuted.

(** Exactly the diagonal matters, in any arithmetic: two inertia matrices with equal
    diagonals give the same derivatives for all states and controls. *)
Theorem C71_only_diagonal :
  forall T (N : Num T) (m n : T) (I J : mat3 T) vel body samples method d d',
    m00 I = m00 J -> m11 I = m11 J -> m22 I = m22 J ->
    sixdof_dyn m I vel n body samples method = Ok d -> sixdof_dyn m J vel n body samples method = Ok d' ->
    forall t s u, compute_state_dot d t s u = compute_state_dot d' t s u.
Proof. exact (fun T N => @sixdof_diagonal T N). Qed.
Print Assumptions C71_only_diagonal.
