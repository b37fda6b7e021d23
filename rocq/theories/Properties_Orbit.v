(** C126: the default mass and orbit. *)
From Coq Require Import String ZArith Reals Bool List.
From Verif Require Import PyBase Num Arr BaseModel Spec SpecBase XReal Cwh Rot2d Sun SpecRk SpecCwh SpecInteg DefaultOrbit.
Import List ListNotations.
Local Open Scope R_scope.
Local Hint Extern 0 (Num xr) => exact (XR Fin) : typeclass_instances.

(** Exact arithmetic: a spacecraft built with the default mass and mean motion moves like 12 kg on an orbit of 0.001027 rad/s. *)
Theorem C126_point : forall samples method x0 y0 z0 xd0 yd0 zd0 e, cwh_spacecraft M_DEFAULT N_DEFAULT samples method x0 y0 z0 xd0 yd0 zd0 = Ok e ->
  forall t x y z vx vy vz fx fy fz,
    compute_state_dot (e_dyn e) t (A1 (map Fin [x; y; z; vx; vy; vz])) (A1 (map Fin [fx; fy; fz])) = Ok (A1 (map Fin
      [vx; vy; vz; 3164187 / 10 ^ 12 * x + 2054 / 10 ^ 6 * vy + fx / 12; - (2054 / 10 ^ 6) * vx + fy / 12; - (1054729 / 10 ^ 12) * z + fz / 12])).
Proof. exact default_cwh. Qed.
Print Assumptions C126_point.

(** The rotational spacecraft in the plane, while it spins below its rate limit under an admissible moment. *)
Theorem C126_rotational : forall (w : world xr) samples method jax x0 y0 th0 vx0 vy0 wz0 e,
  rot2d_spacecraft w M_DEFAULT R2_INERTIA R2_ANG_ACC_LIMIT R2_ANG_VEL_LIMIT R2_INERTIA_WHEEL R2_ACC_LIMIT_WHEEL R2_VEL_LIMIT_WHEEL N_DEFAULT
    samples method jax x0 y0 th0 vx0 vy0 wz0 = Ok e ->
  forall t x y th vx vy wz fx fy mz, Rabs wz < 34907 / 1000000 -> Rabs mz <= 10000569 / 10000000000 ->
    compute_state_dot (e_dyn e) t (A1 (map Fin [x; y; th; vx; vy; wz])) (A1 (map Fin [fx; fy; mz])) = Ok (A1 (map Fin
      [vx; vy; wz; 3164187 / 10 ^ 12 * x + 2054 / 10 ^ 6 * vy + (cos th * fx - sin th * fy) / 12;
       - (2054 / 10 ^ 6) * vx + (sin th * fx + cos th * fy) / 12; mz / (573 / 10000)])).
Proof. exact default_rot2d. Qed.
Print Assumptions C126_rotational.

(** The default sun turns at the same rate. *)
Theorem C126_sun : forall (w : world xr) method jax theta th0 acts e e', (method = "Euler"%string \/ rk_solver w /\ reaches_end w) ->
  sun_entity w N_DEFAULT method jax theta = Ok e -> run w (set_state e (A1 [Fin th0])) (fin_acts acts) = Ok e' ->
  sun_theta e' = Ok (Fin (th0 + 1027 / 1000000 * elapsed acts)).
Proof. exact default_sun. Qed.
Print Assumptions C126_sun.

(** One kilometre out, thrusting inwards and up. *)
Example C126_example : exists e, cwh_spacecraft M_DEFAULT N_DEFAULT 0 "RK45" (Fin 100) (Fin 0) (Fin 0) (Fin 0) (Fin 0) (Fin 0) = Ok e /\
  forall t, compute_state_dot (e_dyn e) t (A1 (map Fin [1000; 0; 0; 0; 0; 0])) (A1 (map Fin [-1; 0; 1])) =
    Ok (A1 (map Fin [0; 0; 0; - (80169146333 / 10 ^ 12) - 1 / 3 / 10 ^ 12; 0; 1 / 12])).
Proof. exact default_orbit_ex. Qed.
Print Assumptions C126_example.
