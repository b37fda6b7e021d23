(** Property C94: where a vehicle is does not influence how it moves. *)
From Coq Require Import String List Bool Arith ZArith Reals.
From Verif Require Import PyBase Num Arr BaseModel XReal SpecRk SpecShift Cwh Rot2d Utils SixDof Dubins Integ ShiftLemmas.
Import List ListNotations.
Local Open Scope R_scope.
Local Hint Extern 0 (Num xr) => exact (XR Fin) : typeclass_instances.

(** * C94 Displaced vehicles *)

(** In exact arithmetic: a vehicle displaced at the start by [a], [b], [c] and given the same
    actions is displaced by the same amounts ever after, with equal derivatives, and every
    exception is raised by both. All numbers (states, limits, actions, step sizes) may be
    infinite or NaN. *)
Theorem C94_dubins2d :
  forall w k me v0 v1 h0 h1 a0 a1 x y hd v a b acts, solver_ok me [a; b; 0; 0] w ->
  displaced_result [a; b; 0; 0] (run w (dubins2d_aircraft k me v0 v1 h0 h1 a0 a1 x y hd v) acts)
    (run w (dubins2d_aircraft k me v0 v1 h0 h1 a0 a1 (xadd x (Fin a)) (xadd y (Fin b)) hd v) acts).
Proof. exact dubins2d_displaced. Qed.
Print Assumptions C94_dubins2d.

Theorem C94_dubins3d :
  forall w k me v0 v1 g0 g1 r0 r1 h0 h1 rr0 rr1 a0 a1 x y z hd g r v a b c acts,
  solver_ok me [a; b; c; 0; 0; 0; 0] w ->
  displaced_result [a; b; c; 0; 0; 0; 0]
    (run w (dubins3d_aircraft k me v0 v1 g0 g1 r0 r1 h0 h1 rr0 rr1 a0 a1 x y z hd g r v) acts)
    (run w (dubins3d_aircraft k me v0 v1 g0 g1 r0 r1 h0 h1 rr0 rr1 a0 a1
              (xadd x (Fin a)) (xadd y (Fin b)) (xadd z (Fin c)) hd g r v) acts).
Proof. exact dubins3d_displaced. Qed.
Print Assumptions C94_dubins3d.

(** Spacecraft: along the orbit (y). *)
Theorem C94_cwh :
  forall w m n k me x y z vx vy vz b, solver_ok me [0; b; 0; 0; 0; 0] w ->
  displaced_runs [0; b; 0; 0; 0; 0] w (cwh_spacecraft m n k me x y z vx vy vz)
    (cwh_spacecraft m n k me x (xadd y (Fin b)) z vx vy vz).
Proof. exact cwh_displaced. Qed.
Print Assumptions C94_cwh.

Theorem C94_rotation2d :
  forall w m i al vl iw aw vw n k me j x y th vx vy wz b, solver_ok me [0; b; 0; 0; 0; 0] w ->
  displaced_runs [0; b; 0; 0; 0; 0] w (rot2d_spacecraft w m i al vl iw aw vw n k me j x y th vx vy wz)
    (rot2d_spacecraft w m i al vl iw aw vw n k me j x (xadd y (Fin b)) th vx vy wz).
Proof. exact rot2d_displaced. Qed.
Print Assumptions C94_rotation2d.

Theorem C94_sixdof :
  forall w m I al vl iw aw vw tl body n k me x y z q1 q2 q3 q4 vx vy vz wx wy wz b,
  solver_ok me [0; b; 0; 0; 0; 0; 0; 0; 0; 0; 0; 0; 0] w ->
  displaced_runs [0; b; 0; 0; 0; 0; 0; 0; 0; 0; 0; 0; 0] w
    (sixdof_spacecraft m I al vl iw aw vw tl body n k me x y z q1 q2 q3 q4 vx vy vz wx wy wz)
    (sixdof_spacecraft m I al vl iw aw vw tl body n k me x (xadd y (Fin b)) z q1 q2 q3 q4 vx vy vz wx wy wz).
Proof. exact sixdof_displaced. Qed.
Print Assumptions C94_sixdof.

(** Integrators: every axis. *)
Theorem C94_integrator1d :
  forall w m c k me x vx a, solver_ok me [a; 0] w ->
  displaced_runs [a; 0] w (integrator1d_body m c k me x vx) (integrator1d_body m c k me (xadd x (Fin a)) vx).
Proof. exact integ1_displaced. Qed.
Print Assumptions C94_integrator1d.

Theorem C94_integrator2d :
  forall w m c k me x y vx vy a b, solver_ok me [a; b; 0; 0] w ->
  displaced_runs [a; b; 0; 0] w (integrator2d_body m c k me x y vx vy)
    (integrator2d_body m c k me (xadd x (Fin a)) (xadd y (Fin b)) vx vy).
Proof. exact integ2_displaced. Qed.
Print Assumptions C94_integrator2d.

Theorem C94_integrator3d :
  forall w m cc k me x y z vx vy vz a b c, solver_ok me [a; b; c; 0; 0; 0] w ->
  displaced_runs [a; b; c; 0; 0; 0] w (integrator3d_body m cc k me x y z vx vy vz)
    (integrator3d_body m cc k me (xadd x (Fin a)) (xadd y (Fin b)) (xadd z (Fin c)) vx vy vz).
Proof. exact integ3_displaced. Qed.
Print Assumptions C94_integrator3d.

(** The premise about solvers holds for every explicit Runge-Kutta method. *)
Theorem C94_runge_kutta : forall cs tb, blind_solver cs (erk_world tb).
Proof. exact erk_blind. Qed.
Print Assumptions C94_runge_kutta.

(** From 3 to 5, hence from 10 to 12; the command 5 is saturated to 1. *)
Example C94_example : forall w, exists e1 e2,
  (e <- integrator1d_body (Fin 1) (Fin (1/2)) 0 "Euler" (Fin 3) (Fin 1) ;; run w e [(Fin 2, AArr (A1 [Fin 5]))]) = Ok e1 /\
  (e <- integrator1d_body (Fin 1) (Fin (1/2)) 0 "Euler" (Fin 10) (Fin 1) ;; run w e [(Fin 2, AArr (A1 [Fin 5]))]) = Ok e2 /\
  e_state e1 = A1 (map Fin [5; 2]) /\ e_state e2 = A1 (map Fin [12; 2]).
Proof. exact C94_ex. Qed.
