(** Properties C90, C91: steady rotation and thruster effectiveness of the six-degrees-of-
    freedom spacecraft. *)
From Coq Require Import String List Bool Arith ZArith Lia Reals Lra.
From Coquelicot Require Import Coquelicot.
From Verif Require Import PyBase Num Arr BaseModel XReal Cwh Utils SixDof SpecRk SpecCwh SpecSixDof SpecFlow SpecSpin
  CwhLemmas SixDofLemmas SixDofProps SpinLemmas XTac.
Import List ListNotations.
Local Open Scope R_scope.

(** Exact arithmetic and exact casts. *)
Local Hint Extern 0 (Num xr) => exact (XR Fin) : typeclass_instances.

(** * C90 Coasting with a steady rotation *)

(** If the body rates w feel no gyroscopic moment (equal inertias, or rotation about a
    principal axis), the closed form is a solution of the implemented equations: the centre
    of mass on its relative orbit, the attitude turning about w with the angular speed |w|. *)
Theorem C90_closed_form_solves :
  forall m I i0 i1 i2 lim n body samples method d p q v w, sd_ok m I i0 i1 i2 -> n <> 0 ->
    sixdof_dyn (Fin m) I (fin3 lim) (Fin n) body samples method = Ok d -> sd_gyro i0 i1 i2 w = zero3 ->
    solves d (A1 (map Fin (sd_ctrl zero3 zero3))) (sd_coast n p q v w) /\
    sd_coast n p q v w 0 = sd_state p q v w.
Proof.
  exact (fun m I i0 i1 i2 lim n body sa me d p q v w K Hn E G =>
    conj (coast_solves m I i0 i1 i2 lim n body sa me d p q v w K Hn E G) (coast_0 n p q v w Hn)).
Qed.
Print Assumptions C90_closed_form_solves.

(** With equal inertias it is the only one. *)
Theorem C90_unique :
  forall m I i lim n body samples method d sol p q v w, sd_ok m I i i i -> n <> 0 ->
    sixdof_dyn (Fin m) I (fin3 lim) (Fin n) body samples method = Ok d -> sol 0 = sd_state p q v w ->
    solves d (A1 (map Fin (sd_ctrl zero3 zero3))) sol -> forall t, sol t = sd_coast n p q v w t.
Proof. exact coast_unique. Qed.
Print Assumptions C90_unique.

(** The default integration method, with a solver that makes no error, and zero commands:
    after steps of any lengths the spacecraft is where the closed form says for the total
    time. *)
Theorem C90_steps :
  forall (w0 : world xr) m I i0 i1 i2 A V al vl iw aw vw thr body n samples p q v w e hs,
    sd_ok m I i0 i1 i2 -> n <> 0 -> limit_arg A al -> limit_arg V vl ->
    sixdof_build m I A V iw aw vw thr body n samples "RK45" p q v w = Ok e ->
    SpecSixDof.within al zero3 -> 0 < i0 -> 0 < i1 -> 0 < i2 -> 0 <= iw * aw -> 0 <= thr ->
    SpecSixDof.within (wheel_limit vl iw vw i0 i1 i2) w -> sd_gyro i0 i1 i2 w = zero3 ->
    exact_on w0 (fun t x => compute_state_dot (e_dyn e) t x (A1 (map Fin (sd_ctrl zero3 zero3)))) ->
    exists e', run w0 e (sd_acts (map (fun h => (h, zero3, zero3)) hs)) = Ok e' /\
      e_state e' = A1 (map Fin (sd_coast n p q v w (fold_right Rplus 0 hs))).
Proof. exact coast_craft. Qed.
Print Assumptions C90_steps.

(** Coasting for a time a and then for a time b is coasting for a + b. *)
Theorem C90_times_add :
  forall n p q v w a b p' q' v' w', n <> 0 -> sd_coast n p q v w a = sd_state p' q' v' w' ->
    sd_coast n p q v w (a + b) = sd_coast n p' q' v' w' b.
Proof. exact coast_add. Qed.
Print Assumptions C90_times_add.

(** Along the motion the norm of the quaternion and the direction of the rotation axis in
    space are constant, and after each time 2 pi / |w| every body direction points where it
    pointed before, although the stored quaternion has changed its sign. *)
Theorem C90_turn :
  forall n p q v w t,
    qnorm2 (sd_quat (sd_coast n p q v w t)) = qnorm2 q /\
    spin (sd_quat (sd_coast n p q v w t)) w = spin q w /\
    (w <> zero3 ->
      sd_quat (sd_coast n p q v w (t + 2 * PI / norm3 w)) = qscale (-1) (sd_quat (sd_coast n p q v w t)) /\
      forall x, spin (sd_quat (sd_coast n p q v w (t + 2 * PI / norm3 w))) x = spin (sd_quat (sd_coast n p q v w t)) x).
Proof.
  exact (fun n p q v w t => conj (coast_norm n p q v w t) (conj (coast_axis n p q v w t) (fun Hw =>
    conj (coast_turn n p q v w t Hw)
      (fun x => eq_trans (f_equal (fun a => spin a x) (coast_turn n p q v w t Hw)) (spin_neg _ x))))).
Qed.
Print Assumptions C90_turn.

(** Solvers without error on these equations exist. *)
Theorem C90_exact_solver_exists :
  forall m I i lim n body samples method d, sd_ok m I i i i -> n <> 0 ->
    sixdof_dyn (Fin m) I (fin3 lim) (Fin n) body samples method = Ok d ->
    exists w, exact_on w (fun t x => compute_state_dot d t x (A1 (map Fin (sd_ctrl zero3 zero3)))).
Proof.
  exact (fun m I i lim n body sa me d K Hn E =>
    ex_intro _ (coast_world n) (coast_world_exact m I i lim n body sa me d K Hn E)).
Qed.
Print Assumptions C90_exact_solver_exists.

(** At rest at the origin, rotating with 1 rad/s about z: two steps of pi / 2 turn the
    identity attitude into half a turn about z. *)
Example C90_example :
  exists e e',
    sixdof_build 2 (diag 1 1 1) (NAnum (PyInt 1)) (NAnum (PyInt 1)) 10 10 10 1 true 1 0 "RK45"
      (0, 0, 0) ((0, 0, 0), 1) (0, 0, 0) (0, 0, 1) = Ok e /\
    run (coast_world 1) e (sd_acts [(PI / 2, zero3, zero3); (PI / 2, zero3, zero3)]) = Ok e' /\
    e_state e' = A1 (map Fin (sd_state (0, 0, 0) ((0, 0, 1), 0) (0, 0, 0) (0, 0, 1))).
Proof.
  assert (La : limit_arg (NAnum (PyInt 1)) (1, 1, 1)).
  { right. eexists. split; [reflexivity|]. cbn. repeat split; apply (f_equal Fin); field. }
  assert (Hok : sd_ok 2 (diag 1 1 1) 1 1 1) by (repeat split; lra).
  destruct (sixdof_craft_ok 2 (diag 1 1 1) _ _ _ _ 10 10 10 1 true 1 0%Z "RK45" (0, 0, 0) ((0, 0, 0), 1) (0, 0, 0) (0, 0, 1)
    ltac:(lra) La La) as [e E].
  destruct (sixdof_limits _ _ _ _ _ _ _ _ _ _ _ _ _ _ _ _ _ _ _ _ _ _ Hok La La E) as (D & _).
  destruct (C90_steps (coast_world 1) _ _ _ _ _ _ _ _ _ _ _ _ _ _ _ _ _ _ _ _ e [PI / 2; PI / 2] Hok R1_neq_R0 La La E)
    as (e' & R1 & R2); try lra.
  - cbv [SpecSixDof.within zero3]. lra.
  - cbv [wheel_limit SpecSixDof.within]. rewrite !Rmin_left by lra. lra.
  - cbv [sd_gyro zero3]. repeat apply (f_equal2 pair); field.
  - apply (coast_world_exact _ _ _ _ _ _ _ _ _ Hok R1_neq_R0 D).
  - exists e, e'. split; [exact E|]. split; [exact R1|]. rewrite R2. do 2 f_equal. cbn [fold_right].
    unfold sd_coast, cw_flow. cbv zeta. unfold qturn.
    replace (norm3 (0, 0, 1)) with 1 by (unfold norm3; cbv [dot3]; rewrite <- sqrt_1 at 1; f_equal; ring).
    replace (1 * (PI / 2 + (PI / 2 + 0)) / 2) with (PI / 2) by field.
    rewrite sin_PI2, cos_PI2. unquat. cbn [sd_state]. fin_list; field.
Qed.

(** * C91 Effect of a thrust command *)

(** "A unit thrust changes the velocity, beyond the orbital motion, by at most h / m in one
    step": false with Euler integration. For every bound there is a run of torque-free steps
    after which one step with the unit thrust along the body x axis exceeds it, because the
    rotation matrix built from the stored quaternion scales with its squared norm. *)
Theorem C91_thrust_bounded_refuted :
  forall (w0 : world xr) (B : R),
    exists e e' l p q v w h f p' q' w' a,
      sixdof_build 2 (diag 1 1 1) (NAnum (PyInt 1)) (NAnum (PyInt 1)) 10 10 10 1 true 1 0 "Euler"
        (0, 0, 0) ((0, 0, 0), 1) (0, 0, 0) (0, 0, 1) = Ok e /\
      run w0 e (sd_acts l) = Ok e' /\ e_state e' = A1 (map Fin (sd_state p q v w)) /\
      f = (1, 0, 0) /\
      let o := entity_step w0 e' (Fin h) (AArr (A1 (map Fin (sd_ctrl f zero3)))) in
      o_res o = Ok tt /\
      e_state (o_entity o) = A1 (map Fin (sd_state p' q' (add3 v (scale3 h (add3 (sd_cw 1 p v) a))) w')) /\
      h = 1 /\ B < dot3 a a.
Proof. exact thrust_unbounded. Qed.
Print Assumptions C91_thrust_bounded_refuted.

(** The law of each Euler step, in any reachable state: the acceleration beyond the orbital
    motion has the magnitude |q|^2 |f| / m for body-frame thrust, and |f| / m for thrust in
    the orbital frame, where f is the saturated command. *)
Theorem C91_thrust_magnitude :
  forall (w0 : world xr) m I i0 i1 i2 A V al vl iw aw vw thr body n samples p0 q0 v0 w0' e,
    sd_ok m I i0 i1 i2 -> (samples <= 0)%Z -> limit_arg A al -> limit_arg V vl ->
    sixdof_build m I A V iw aw vw thr body n samples "Euler" p0 q0 v0 w0' = Ok e ->
    forall acts e' p q v w h f M, run w0 e acts = Ok e' -> e_state e' = A1 (map Fin (sd_state p q v w)) ->
    let o := entity_step w0 e' (Fin h) (AArr (A1 (map Fin (sd_ctrl f M)))) in
    let g := clipc (- thr, - thr, - thr) (thr, thr, thr) f in
    exists p' q' w' a, o_res o = Ok tt /\
      e_state (o_entity o) = A1 (map Fin (sd_state p' q' (add3 v (scale3 h (add3 (sd_cw n p v) a))) w')) /\
      dot3 a a = (if body then qnorm2 q * qnorm2 q else 1) * dot3 g g / (m * m).
Proof. exact thrust_law. Qed.
Print Assumptions C91_thrust_magnitude.
