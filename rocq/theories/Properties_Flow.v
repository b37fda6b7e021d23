(** Properties C84-C86: forced motion, convergence of the step size, closed orbits of the
    Clohessy-Wiltshire spacecraft. *)
From Coq Require Import String List Bool Arith ZArith Lia Reals Lra.
From Coquelicot Require Import Coquelicot.
From Verif Require Import PyBase Num Arr BaseModel XReal Cwh SpecRk SpecCwh CwhLemmas SpecFlow FlowLemmas
  OrbitLemmas XTac.
Import List ListNotations.
Local Open Scope R_scope.

(** Exact arithmetic; the float32 cast is whatever the quantified [r32] says. *)
Local Hint Extern 0 (Num xr) => match goal with r : R -> xr |- _ => exact (XR r) end : typeclass_instances.

(** * C84 Motion under constant thrust *)

(** The closed form is a solution of the implemented equations, for any constant thrust. *)
Theorem C84_closed_form_solves :
  forall (r32 : R -> xr) m n samples method d s fx fy fz,
    m <> 0 -> n <> 0 -> length s = 6%nat -> cwh_dyn (Fin m) (Fin n) samples method = Ok d ->
    solves d (A1 (map Fin [fx; fy; fz])) (cw_forced n (fx / m) (fy / m) (fz / m) s) /\
    cw_forced n (fx / m) (fy / m) (fz / m) s 0 = s.
Proof.
  exact (fun r32 m n sa me d s fx fy fz Hm Hn L E =>
    conj (forced_solves r32 m n sa me d s fx fy fz Hm Hn L E) (forced_0 n _ _ _ s Hn L)).
Qed.
Print Assumptions C84_closed_form_solves.

(** It is the only one. *)
Theorem C84_unique :
  forall (r32 : R -> xr) m n samples method d sol fx fy fz,
    m <> 0 -> n <> 0 -> cwh_dyn (Fin m) (Fin n) samples method = Ok d ->
    length (sol 0) = 6%nat -> solves d (A1 (map Fin [fx; fy; fz])) sol ->
    forall t, sol t = cw_forced n (fx / m) (fy / m) (fz / m) (sol 0) t.
Proof. exact forced_unique. Qed.
Print Assumptions C84_unique.

(** Moving for a time a and then for a time b is moving for a + b. *)
Theorem C84_times_add :
  forall n ax ay az s a b, n <> 0 -> length s = 6%nat ->
    cw_forced n ax ay az s (a + b) = cw_forced n ax ay az (cw_forced n ax ay az s a) b.
Proof. exact (forced_semigroup Fin). Qed.
Print Assumptions C84_times_add.

(** The default integration method, with a solver that makes no error: each step, with any
    thrust command and any trajectory samples setting, moves the spacecraft along the
    closed form of the saturated thrust. *)
Theorem C84_steps :
  forall (r32 : R -> xr) (w : world xr) m n samples x0 y0 z0 xd0 yd0 zd0 e0,
    m <> 0 -> n <> 0 -> cwh_spacecraft (Fin m) (Fin n) samples "RK45" x0 y0 z0 xd0 yd0 zd0 = Ok e0 ->
    (forall gx gy gz, exact_on w (fun t x => compute_state_dot (e_dyn e0) t x (A1 (map Fin [gx; gy; gz])))) ->
    forall (l : list (R * (R * R * R))) (e : entity xr) s,
    e_dyn e = e_dyn e0 -> e_cmin e = e_cmin e0 -> e_cmax e = e_cmax e0 ->
    length s = 6%nat -> e_state e = A1 (map Fin s) ->
    exists e', run w e (map (fun p => let '(h, (fx, fy, fz)) := p in (Fin h, AArr (A1 (map Fin [fx; fy; fz])))) l) = Ok e' /\
      e_state e' = A1 (map Fin (fold_left (fun s p => let '(h, (fx, fy, fz)) := p in
        cw_forced n (clipR (-1) 1 fx / m) (clipR (-1) 1 fy / m) (clipR (-1) 1 fz / m) s h) l s)).
Proof. exact exact_run. Qed.
Print Assumptions C84_steps.

(** With one thrust command throughout, the way the time is divided into steps does not
    matter. *)
Theorem C84_step_sizes_do_not_matter :
  forall (r32 : R -> xr) (w : world xr) m n samples x0 y0 z0 xd0 yd0 zd0 e0 s fx fy fz (hs : list R),
    m <> 0 -> n <> 0 -> cwh_spacecraft (Fin m) (Fin n) samples "RK45" x0 y0 z0 xd0 yd0 zd0 = Ok e0 ->
    (forall gx gy gz, exact_on w (fun t x => compute_state_dot (e_dyn e0) t x (A1 (map Fin [gx; gy; gz])))) ->
    length s = 6%nat ->
    exists e', run w (set_state e0 (A1 (map Fin s))) (map (fun h => (Fin h, AArr (A1 (map Fin [fx; fy; fz])))) hs) = Ok e' /\
      e_state e' = A1 (map Fin (cw_forced n (clipR (-1) 1 fx / m) (clipR (-1) 1 fy / m) (clipR (-1) 1 fz / m) s
                                  (fold_right Rplus 0 hs))).
Proof. exact exact_run_const. Qed.
Print Assumptions C84_step_sizes_do_not_matter.

(** Solvers without error on these equations exist. *)
Theorem C84_exact_solver_exists :
  forall (r32 : R -> xr) m n samples method d, m <> 0 -> n <> 0 ->
    cwh_dyn (Fin m) (Fin n) samples method = Ok d ->
    exists w, forall gx gy gz, exact_on w (fun t x => compute_state_dot d t x (A1 (map Fin [gx; gy; gz]))).
Proof.
  exact (fun r32 m n sa me d Hm Hn E => ex_intro _ (cw_world n) (cw_world_exact r32 m n sa me d Hm Hn E)).
Qed.
Print Assumptions C84_exact_solver_exists.

(** Half an orbit (time pi at n = 1) of full thrust along x, starting at rest at the
    origin: 2/m out along x, 2 pi/m behind along y. *)
Example C84_example :
  exists e0 e', cwh_spacecraft (N := XR Fin) (Fin 12) (Fin 1) 0 "RK45" (Fin 0) (Fin 0) (Fin 0) (Fin 0) (Fin 0) (Fin 0) = Ok e0 /\
    run (N := XR Fin) (cw_world 1) (set_state e0 (A1 (map Fin [0; 0; 0; 0; 0; 0])))
      (map (fun h => (Fin h, AArr (A1 (map Fin [7; 0; 0])))) [PI / 4; PI / 2; PI / 4]) = Ok e' /\
    e_state e' = A1 (map Fin [2 / 12; - 2 * PI / 12; 0; 0; - 4 / 12; 0]).
Proof.
  destruct (cwh_spacecraft (N := XR Fin) (Fin 12) (Fin 1) 0 "RK45" (Fin 0) (Fin 0) (Fin 0) (Fin 0) (Fin 0) (Fin 0))
    as [e|] eqn:E.
  2:{ exfalso. unfold cwh_spacecraft, cwh_dyn, generate_cwh_matrices, pydiv in E. revert E. xstep. discriminate. }
  exists e. destruct (cwh_spacecraft_dyn Fin _ _ _ _ _ _ _ _ _ _ _ E) as (Ed & _).
  destruct (C84_step_sizes_do_not_matter Fin (cw_world 1) 12 1 0 _ _ _ _ _ _ e [0; 0; 0; 0; 0; 0] 7 0 0
    [PI / 4; PI / 2; PI / 4] ltac:(lra) ltac:(lra) E
    (cw_world_exact Fin 12 1 _ _ _ ltac:(lra) ltac:(lra) Ed) eq_refl) as (e' & R1 & R2).
  exists e'. split; [reflexivity|]. split; [exact R1|]. rewrite R2. do 2 f_equal. rewrite forced_eq. cbn [fold_right]. cbv zeta.
  replace (1 * (PI / 4 + (PI / 2 + (PI / 4 + 0)))) with PI by field. rewrite sin_PI, cos_PI.
  unfold clipR. rewrite (Rmax_left 7), (Rmin_right 7), (Rmax_left 0), (Rmin_left 0) by lra.
  fin_list; field.
Qed.

(** * C85 Euler integration converges to the exact motion *)

(** The error of k equal Euler steps over a time T, in every element of the state, is at
    most K T / k. *)
Theorem C85_euler_converges :
  forall (r32 : R -> xr) (w : world xr) m n samples x0 y0 z0 xd0 yd0 zd0 e0 s fx fy fz T,
    m <> 0 -> n <> 0 -> (samples <= 0)%Z ->
    cwh_spacecraft (Fin m) (Fin n) samples "Euler" x0 y0 z0 xd0 yd0 zd0 = Ok e0 ->
    -1 <= fx <= 1 -> -1 <= fy <= 1 -> -1 <= fz <= 1 -> length s = 6%nat -> 0 <= T ->
    exists K, forall k, (0 < k)%nat -> exists e' s',
      run w (set_state e0 (A1 (map Fin s))) (repeat (Fin (T / INR k), AArr (A1 (map Fin [fx; fy; fz]))) k) = Ok e' /\
      e_state e' = A1 (map Fin s') /\
      within (K * (T / INR k)) s' (cw_forced n (fx / m) (fy / m) (fz / m) s T).
Proof. exact cwh_converges. Qed.
Print Assumptions C85_euler_converges.

(** The error is not zero: one Euler step of length pi from x = 1 at rest, n = 1. *)
Example C85_example :
  cw_forced 1 0 0 0 [1; 0; 0; 0; 0; 0] PI = [7; - 6 * PI; 0; 0; - 12; 0] /\
  euler_iter (cwF 1 0 0 0) PI 1 [1; 0; 0; 0; 0; 0] = [1; 0; 0; 3 * PI; 0; 0].
Proof.
  split.
  - rewrite forced_eq. cbv zeta. replace (1 * PI) with PI by ring. rewrite sin_PI, cos_PI. fin_list; field.
  - cbn [euler_iter]. cbv zeta. rewrite cwF_eq. cbv [vaxpy zipw]. fin_list; ring.
Qed.

(** * C86 Closed and bounded relative orbits *)

(** One orbital period changes nothing but y, by the drift. *)
Theorem C86_drift_per_orbit :
  forall (r32 : R -> xr) m n samples method d sol, m <> 0 -> n <> 0 ->
    cwh_dyn (Fin m) (Fin n) samples method = Ok d -> length (sol 0) = 6%nat ->
    solves d (A1 (map Fin [0; 0; 0])) sol ->
    forall t, exists x y z vx vy vz, sol t = [x; y; z; vx; vy; vz] /\
      sol (t + 2 * PI / n) = [x; y - 6 * PI / n * (vy + 2 * n * x); z; vx; vy; vz].
Proof. exact drift_per_orbit. Qed.
Print Assumptions C86_drift_per_orbit.

(** The relative orbit closes exactly when y_dot = - 2 n x holds at the start. *)
Theorem C86_closed_iff :
  forall (r32 : R -> xr) m n samples method d sol, m <> 0 -> n <> 0 ->
    cwh_dyn (Fin m) (Fin n) samples method = Ok d -> length (sol 0) = 6%nat ->
    solves d (A1 (map Fin [0; 0; 0])) sol ->
    ((forall t, sol (t + 2 * PI / n) = sol t) <-> nth 4 (sol 0) 0 = - 2 * n * nth 0 (sol 0) 0).
Proof. exact closed_iff. Qed.
Print Assumptions C86_closed_iff.

(** Exactly then the uncontrolled spacecraft stays near. *)
Theorem C86_bounded_iff :
  forall (r32 : R -> xr) m n samples method d sol, m <> 0 -> n <> 0 ->
    cwh_dyn (Fin m) (Fin n) samples method = Ok d -> length (sol 0) = 6%nat ->
    solves d (A1 (map Fin [0; 0; 0])) sol ->
    ((exists B, forall t i, Rabs (nth i (sol t) 0) <= B) <-> nth 4 (sol 0) 0 = - 2 * n * nth 0 (sol 0) 0).
Proof. exact bounded_iff. Qed.
Print Assumptions C86_bounded_iff.

(** Both kinds of orbit occur: x = 1 with y_dot = -2 is closed, x = 1 at rest drifts by
    -12 pi per orbit. *)
Example C86_example :
  cw_flow 1 [1; 0; 0; 0; -2; 0] (2 * PI / 1) = [1; 0; 0; 0; -2; 0] /\
  cw_flow 1 [1; 0; 0; 0; -2; 0] (PI / 2) = [0; -2; 0; -1; 0; 0] /\
  cw_flow 1 [1; 0; 0; 0; 0; 0] (2 * PI / 1) = [1; - 12 * PI; 0; 0; 0; 0].
Proof.
  repeat split.
  - rewrite flow_period by lra. fin_list; field.
  - cbv [cw_flow]. replace (1 * (PI / 2)) with (PI / 2) by ring. rewrite sin_PI2, cos_PI2. fin_list; field.
  - rewrite flow_period by lra. fin_list; field.
Qed.
