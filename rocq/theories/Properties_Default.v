(** C125: a spacecraft with default parameters stays within the default rates. *)
From Coq Require Import String ZArith Reals Bool List.
From Flocq Require Import Core.Core IEEE754.BinarySingleNaN.
From Verif Require Import PyBase Num Arr BaseModel Spec SpecBase Cwh Utils Rot2d SixDof Float64 XTac DefaultLemmas SpecSteer.
Import List ListNotations.
Local Open Scope R_scope.

(** Two dimensions: a default spacecraft, started anywhere and commanded anything, spins after each step at no more than
    0.034907 rad/s and speeds up its spin at no more than 0.017453 rad/s^2 (each rounded up in the ninth digit), unless
    the value is nan. *)
Theorem C125_rates : forall (lm : libm) (w : world f64) samples method jax x y th vx vy wz e acts e',
  rot2d_spacecraft (N := F64 lm) w (M_DEFAULT (N := F64 lm)) (R2_INERTIA (N := F64 lm)) (R2_ANG_ACC_LIMIT (N := F64 lm)) (R2_ANG_VEL_LIMIT (N := F64 lm))
    (R2_INERTIA_WHEEL (N := F64 lm)) (R2_ACC_LIMIT_WHEEL (N := F64 lm)) (R2_VEL_LIMIT_WHEEL (N := F64 lm)) (N_DEFAULT (N := F64 lm))
    samples method jax x y th vx vy wz = Ok e -> acts <> [] -> run (N := F64 lm) w e acts = Ok e' ->
  (forall r : f64, bnth (e_state e') 5 = Some r -> is_nan r = true \/ is_finite r = true /\ Rabs (B2R r) <= 34907001 / 1000000000) /\
  (forall r : f64, bnth (e_sdot e') 5 = Some r -> is_nan r = true \/ is_finite r = true /\ Rabs (B2R r) <= 17453001 / 1000000000).
Proof. exact default_rates. Qed.
Print Assumptions C125_rates.

(** Its commands are limited to 1 N per axis and 0.0010000569 N m (to within 1e-18). *)
Theorem C125_commands : forall (lm : libm) (w : world f64) samples method jax x y th vx vy wz e,
  rot2d_spacecraft (N := F64 lm) w (M_DEFAULT (N := F64 lm)) (R2_INERTIA (N := F64 lm)) (R2_ANG_ACC_LIMIT (N := F64 lm)) (R2_ANG_VEL_LIMIT (N := F64 lm))
    (R2_INERTIA_WHEEL (N := F64 lm)) (R2_ACC_LIMIT_WHEEL (N := F64 lm)) (R2_VEL_LIMIT_WHEEL (N := F64 lm)) (N_DEFAULT (N := F64 lm))
    samples method jax x y th vx vy wz = Ok e ->
  exists t u : f64, e_cmax e = A1 [t; t; u] /\ e_cmin e = A1 [Bopp t; Bopp t; Bopp u] /\
    B2R t = 1 /\ Rabs (B2R u - 10000569 / 10000000000) <= / 10 ^ 18.
Proof. exact default_commands. Qed.
Print Assumptions C125_commands.

(** Six degrees of freedom: the same rate bound about each axis. *)
Theorem C125_six_rates : forall (lm : libm) (w : world f64) body samples method x y z q1 q2 q3 q4 vx vy vz wx wy wz e acts e',
  sixdof_spacecraft (N := F64 lm) (M_DEFAULT (N := F64 lm)) (SD_INERTIA (N := F64 lm)) (NAnum (PyFloat (SD_ANG_ACC_LIMIT (N := F64 lm))))
    (NAnum (PyFloat (SD_ANG_VEL_LIMIT (N := F64 lm)))) (SD_INERTIA_WHEEL (N := F64 lm)) (SD_ACC_LIMIT_WHEEL (N := F64 lm))
    (SD_VEL_LIMIT_WHEEL (N := F64 lm)) (SD_THRUST_LIMIT (N := F64 lm)) body (N_DEFAULT (N := F64 lm)) samples method
    x y z q1 q2 q3 q4 vx vy vz wx wy wz = Ok e -> acts <> [] -> run (N := F64 lm) w e acts = Ok e' ->
  forall k (r : f64), In k [10; 11; 12]%nat -> bnth (e_state e') k = Some r ->
    is_nan r = true \/ is_finite r = true /\ Rabs (B2R r) <= 34907001 / 1000000000.
Proof. exact default_six_rates. Qed.
Print Assumptions C125_six_rates.

Theorem C125_six_commands : forall (lm : libm) body samples method x y z q1 q2 q3 q4 vx vy vz wx wy wz e,
  sixdof_spacecraft (N := F64 lm) (M_DEFAULT (N := F64 lm)) (SD_INERTIA (N := F64 lm)) (NAnum (PyFloat (SD_ANG_ACC_LIMIT (N := F64 lm))))
    (NAnum (PyFloat (SD_ANG_VEL_LIMIT (N := F64 lm)))) (SD_INERTIA_WHEEL (N := F64 lm)) (SD_ACC_LIMIT_WHEEL (N := F64 lm))
    (SD_VEL_LIMIT_WHEEL (N := F64 lm)) (SD_THRUST_LIMIT (N := F64 lm)) body (N_DEFAULT (N := F64 lm)) samples method
    x y z q1 q2 q3 q4 vx vy vz wx wy wz = Ok e ->
  exists t u : f64, e_cmax e = A1 [t; t; t; u; u; u] /\ e_cmin e = A1 [Bopp t; Bopp t; Bopp t; Bopp u; Bopp u; Bopp u] /\
    B2R t = 1 /\ Rabs (B2R u - 10000569 / 10000000000) <= / 10 ^ 18.
Proof. exact default_six_commands. Qed.
Print Assumptions C125_six_commands.

(** A default spacecraft at rest, 100 m away, is built and makes two steps of one second under an excessive moment. *)
Example C125_example : forall (lm : libm) (w : world f64), exists e e', rest_craft lm w = Ok e /\
  run (N := F64 lm) w e [hard; hard] = Ok e'.
Proof. exact default_example. Qed.
Print Assumptions C125_example.
