(** Motion of spacecraft with the default mass and orbit in exact arithmetic (C126). *)
From Coq Require Import String ZArith Reals Bool List Lra.
From Verif Require Import PyBase Num Arr BaseModel Spec SpecBase XReal Cwh Rot2d SpecRk SpecCwh XTac RkLemmas CwhLemmas Rot2dLemmas RotProps Sun IntegLemmas SpecInteg.
Import List ListNotations.
Local Open Scope R_scope.
Local Hint Extern 0 (Num xr) => exact (XR Fin) : typeclass_instances.

Lemma m_default : (M_DEFAULT : xr) = Fin 12.
Proof. cbn. f_equal. lra. Qed.
Lemma n_default : (N_DEFAULT : xr) = Fin (1027 / 1000000).
Proof. reflexivity. Qed.

Lemma default_cwh samples method x0 y0 z0 xd0 yd0 zd0 e : cwh_spacecraft M_DEFAULT N_DEFAULT samples method x0 y0 z0 xd0 yd0 zd0 = Ok e ->
  forall t x y z vx vy vz fx fy fz,
    compute_state_dot (e_dyn e) t (A1 (map Fin [x; y; z; vx; vy; vz])) (A1 (map Fin [fx; fy; fz])) = Ok (A1 (map Fin
      [vx; vy; vz; 3164187 / 10 ^ 12 * x + 2054 / 10 ^ 6 * vy + fx / 12; - (2054 / 10 ^ 6) * vx + fy / 12; - (1054729 / 10 ^ 12) * z + fz / 12])).
Proof.
  rewrite m_default, n_default. intros E t x y z vx vy vz fx fy fz.
  cbn [map]. rewrite (cwh_csd Fin 12 (1027 / 1000000) samples method (e_dyn e) ltac:(lra) (proj1 (cwh_spacecraft_dyn Fin _ _ _ _ _ _ _ _ _ _ _ E))).
  fin_list; lra.
Qed.

Lemma default_rot2d (w : world xr) samples method jax x0 y0 th0 vx0 vy0 wz0 e :
  rot2d_spacecraft w M_DEFAULT R2_INERTIA R2_ANG_ACC_LIMIT R2_ANG_VEL_LIMIT R2_INERTIA_WHEEL R2_ACC_LIMIT_WHEEL R2_VEL_LIMIT_WHEEL N_DEFAULT
    samples method jax x0 y0 th0 vx0 vy0 wz0 = Ok e ->
  forall t x y th vx vy wz fx fy mz, Rabs wz < 34907 / 1000000 -> Rabs mz <= 10000569 / 10000000000 ->
    compute_state_dot (e_dyn e) t (A1 (map Fin [x; y; th; vx; vy; wz])) (A1 (map Fin [fx; fy; mz])) = Ok (A1 (map Fin
      [vx; vy; wz; 3164187 / 10 ^ 12 * x + 2054 / 10 ^ 6 * vy + (cos th * fx - sin th * fy) / 12;
       - (2054 / 10 ^ 6) * vx + (sin th * fx + cos th * fy) / 12; mz / (573 / 10000)])).
Proof.
  rewrite m_default, n_default. intros E t x y th vx vy wz fx fy mz Hw Hm.
  apply Rabs_def2 in Hw. assert (Hm' : - (10000569 / 10000000000) <= mz <= 10000569 / 10000000000) by (revert Hm; unfold Rabs; destruct (Rcase_abs mz); lra).
  destruct (rot2d_limits (fun x => x) w 12 (573 / 10000) (17453 / 1000000) (34907 / 1000000) (41 / 1000000) (1813 / 10) (576 / 1) (Fin (1027 / 1000000))
    samples method jax x0 y0 th0 vx0 vy0 wz0 e ltac:(lra) E) as (D & _).
  rewrite (Rmin_left (17453 / 1000000)), (Rmin_left (34907 / 1000000)) in D by lra.
  rewrite (rot2d_ideal w 12 (573 / 10000) _ _ _ _ _ _ _ ltac:(lra) ltac:(lra) D) by lra.
  cbn [map]. fin_list; lra.
Qed.

(** One kilometre out, thrusting inwards and up. *)
Lemma default_orbit_ex : exists e, cwh_spacecraft M_DEFAULT N_DEFAULT 0 "RK45" (Fin 100) (Fin 0) (Fin 0) (Fin 0) (Fin 0) (Fin 0) = Ok e /\
  forall t, compute_state_dot (e_dyn e) t (A1 (map Fin [1000; 0; 0; 0; 0; 0])) (A1 (map Fin [-1; 0; 1])) =
    Ok (A1 (map Fin [0; 0; 0; - (80169146333 / 10 ^ 12) - 1 / 3 / 10 ^ 12; 0; 1 / 12])).
Proof.
  destruct (cwh_spacecraft M_DEFAULT N_DEFAULT 0 "RK45" (Fin 100) (Fin 0) (Fin 0) (Fin 0) (Fin 0) (Fin 0)) as [e|] eqn:E.
  - exists e. split; [reflexivity|]. intros t. rewrite (default_cwh _ _ _ _ _ _ _ _ _ E). cbn [map]. fin_list; lra.
  - exfalso. rewrite m_default in E. unfold cwh_spacecraft, cwh_dyn, generate_cwh_matrices, pydiv in E. revert E. xstep. discriminate.
Qed.

Lemma default_sun (w : world xr) method jax theta th0 acts e e' : (method = "Euler"%string \/ rk_solver w /\ reaches_end w) ->
  sun_entity w N_DEFAULT method jax theta = Ok e -> run w (set_state e (A1 [Fin th0])) (fin_acts acts) = Ok e' ->
  sun_theta e' = Ok (Fin (th0 + 1027 / 1000000 * elapsed acts)).
Proof. rewrite n_default. exact (sun_run Fin w (1027 / 1000000) method jax theta th0 acts e e'). Qed.
