(** Properties C92, C93: long-term energy of the relative orbit under the Euler method, and
    the closed-form motion of the point-mass integrators. *)
From Coq Require Import String List Bool Arith ZArith Lia Reals Lra.
From Coquelicot Require Import Coquelicot.
From Verif Require Import PyBase Num Arr BaseModel Spec SpecBase XReal Cwh Integ SpecRk SpecCwh SpecInteg SpecFlow SpecEnergy
  SpecGlide IntegLemmas EnergyLemmas GlideLemmas XTac.
Import List ListNotations.
Local Open Scope R_scope.

Local Hint Extern 0 (Num xr) =>
  match goal with
  | r : R -> xr |- _ => exact (XR r)
  | _ => exact (XR Fin)
  end : typeclass_instances.

(** * C92 Boundedness of the relative orbit *)

(** The implemented equations without thrust keep the squared amplitudes of the in-plane and
    of the cross-track oscillation. *)
Theorem C92_equations_keep_amplitudes :
  forall (r32 : R -> xr) m n samples method d sol, m <> 0 -> n <> 0 ->
    cwh_dyn (Fin m) (Fin n) samples method = Ok d ->
    length (sol 0) = 6%nat -> solves d (A1 (map Fin [0; 0; 0])) sol ->
    forall t, in_plane n (sol t) = in_plane n (sol 0) /\ cross_track n (sol t) = cross_track n (sol 0).
Proof. exact energy_exact. Qed.
Print Assumptions C92_equations_keep_amplitudes.

(** The Euler method multiplies both by 1 + (n h)^2 in every step, whatever the state. *)
Theorem C92_euler_growth :
  forall (r32 : R -> xr) (w : world xr) m n samples a1 a2 a3 a4 a5 a6 e0 s hs, m <> 0 -> (samples <= 0)%Z ->
    cwh_spacecraft (Fin m) (Fin n) samples "Euler" a1 a2 a3 a4 a5 a6 = Ok e0 -> length s = 6%nat ->
    exists e' s',
      run w (set_state e0 (A1 (map Fin s))) (map (fun h => (Fin h, AArr (A1 (map Fin [0; 0; 0])))) hs) = Ok e' /\
      e_state e' = A1 (map Fin s') /\ length s' = 6%nat /\
      in_plane n s' = in_plane n s * blow_up n hs /\ cross_track n s' = cross_track n s * blow_up n hs.
Proof. exact energy_craft. Qed.
Print Assumptions C92_euler_growth.

(** The growth over a fixed time vanishes as the steps shrink: T = k h gives at most
    exp (n^2 T h).
    Missing: a bound for a fixed step size, which does not exist. *)
Theorem C92_small_steps_partial :
  forall n hs, 1 <= blow_up n hs <= exp (n^2 * sum_squares hs).
Proof. exact (fun n hs => conj (blow_up_ge n hs) (blow_up_exp n hs)). Qed.
Print Assumptions C92_small_steps_partial.

(** Full statement: a spacecraft left alone on a closed relative orbit stays within a bound.
    It fails for the Euler method: from 1 m cross-track at rest, steps of one second take the
    spacecraft beyond every bound. *)
Theorem C92_bounded_refuted :
  forall w : world xr, exists e0 : entity xr,
    cwh_spacecraft (Fin 12) (Fin (1/1000)) 0 "Euler" (Fin 0) (Fin 0) (Fin 0) (Fin 0) (Fin 0) (Fin 0) = Ok e0 /\
    forall B, exists k e' s',
      run w (set_state e0 (A1 (map Fin [0; 0; 1; 0; 0; 0]))) (repeat (Fin 1, AArr (A1 (map Fin [0; 0; 0]))) k) = Ok e' /\
      e_state e' = A1 (map Fin s') /\ (B < Rabs (nth 2 s' 0) \/ B < Rabs (nth 5 s' 0)).
Proof. exact euler_unbounded. Qed.
Print Assumptions C92_bounded_refuted.

(** Two steps of 1000 s: the speed amplitude n |z| = 1 mm/s has become 2 mm/s. *)
Example C92_example : exists e e',
  cwh_spacecraft (Fin 12) (Fin (1/1000)) 0 "Euler" (Fin 0) (Fin 0) (Fin 1) (Fin 0) (Fin 0) (Fin 0) = Ok e /\
  run euler_world (set_state e (A1 (map Fin [0; 0; 1; 0; 0; 0])))
    [(Fin 1000, AArr (A1 (map Fin [0; 0; 0]))); (Fin 1000, AArr (A1 (map Fin [0; 0; 0])))] = Ok e' /\
  e_state e' = A1 (map Fin [0; 0; 0; 0; 0; -2/1000]) /\
  cross_track (1/1000) [0; 0; 0; 0; 0; -2/1000] = 4 * cross_track (1/1000) [0; 0; 1; 0; 0; 0].
Proof. exact C92_ex. Qed.

(** * C93 Closed-form motion of the point-mass integrators *)

Theorem C93_closed_form_solves :
  forall (r32 : R -> xr) m c mode k samples method d ps vs us, m <> 0 -> offered mode k ->
    integ_dyn (Fin m) (Fin c) mode samples method = Ok d -> length ps = k -> length vs = k -> length us = k ->
    solves d (A1 (map Fin us)) (glide m c ps vs us) /\ glide m c ps vs us 0 = ps ++ vs.
Proof.
  exact (fun r m c mode k sa me d ps vs us Hm Of E L1 L2 L3 =>
    conj (glide_solves r m c mode k sa me d ps vs us Hm Of E L1 L2 L3) (glide_zero m c k ps vs us L1 L2 L3)).
Qed.
Print Assumptions C93_closed_form_solves.

Theorem C93_unique :
  forall (r32 : R -> xr) m c mode k samples method d sol us ps vs, m <> 0 -> offered mode k ->
    integ_dyn (Fin m) (Fin c) mode samples method = Ok d -> length ps = k -> length vs = k -> length us = k ->
    sol 0 = ps ++ vs -> solves d (A1 (map Fin us)) sol -> forall t, sol t = glide m c ps vs us t.
Proof. exact glide_unique. Qed.
Print Assumptions C93_unique.

(** The default integration method, with a solver that makes no error: one command held
    through steps of any lengths leaves the entity where the closed form says for the total
    time, the command saturated at -1 and 1. *)
Theorem C93_steps :
  forall (r32 : R -> xr) (w : world xr) m c mode k samples us, m <> 0 -> offered mode k -> length us = k ->
    forall hs e ps vs, plain_integ r32 m c mode k samples "RK45" e ->
    (forall us', length us' = k -> exact_on w (fun t x => compute_state_dot (e_dyn e) t x (A1 (map Fin us')))) ->
    length ps = k -> length vs = k -> e_state e = point_state ps vs ->
    exists e', run w e (thrusts (map (fun h => (h, us)) hs)) = Ok e' /\
      e_state e' = A1 (map Fin (glide m c ps vs (map (clipR (-1) 1) us) (fold_right Rplus 0 hs))).
Proof. exact glide_run. Qed.
Print Assumptions C93_steps.

(** Such solvers exist. *)
Theorem C93_exact_solver_exists :
  forall (r32 : R -> xr) m c mode k samples method d, m <> 0 -> offered mode k ->
    integ_dyn (Fin m) (Fin c) mode samples method = Ok d ->
    exists w, forall us, length us = k -> exact_on w (fun t x => compute_state_dot d t x (A1 (map Fin us))).
Proof. exact glide_world_exists. Qed.
Print Assumptions C93_exact_solver_exists.

(** With damping every axis tends to the speed u/(m c), exponentially and monotonically. *)
Theorem C93_terminal_velocity :
  forall m c v u t, m <> 0 -> 0 < c ->
    Rabs (glide_v m c v u t - u / (m * c)) = Rabs (v - u / (m * c)) * exp (- c * t).
Proof. exact glide_limit. Qed.
Print Assumptions C93_terminal_velocity.

(** Mass 2, no damping, from rest under a command of 5 (saturated at 1), steps of 1 s and
    3 s: position (1/2)(1/2) 4^2 = 4, speed 2. *)
Example C93_example : exists e e',
  integrator1d_body (Fin 2) (Fin 0) 0 "RK45" (Fin 0) (Fin 0) = Ok e /\
  run (glide_world 2 0 1) e (thrusts [(1, [5]); (3, [5])]) = Ok e' /\
  e_state e' = A1 (map Fin [4; 2]).
Proof. exact C93_ex. Qed.
