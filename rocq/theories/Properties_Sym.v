(** Properties C100, C101: turning the map and mirror images. *)
From Coq Require Import String List Bool Arith ZArith Reals.
From Verif Require Import PyBase Num Arr BaseModel XReal SpecRk SpecSym SpecCwh SpecSixDof Cwh Rot2d Utils SixDof Dubins Integ
  SixDofProps SymLemmas3.
Import List ListNotations.
Local Open Scope R_scope.

(** Exact arithmetic and exact casts. *)
Local Hint Extern 0 (Num xr) => exact (XR Fin) : typeclass_instances.

(** * C100 No preferred direction *)

(** An aircraft that starts at the position turned by [phi] about the origin, heading [phi] further,
    and gets the same commands, flies the turned path: position and rate of position are turned by
    [phi], the heading differs by [phi] up to full turns, everything else is equal. This holds for
    the Euler method and for every solver that respects the relation. *)
Theorem C100_dubins2d :
  forall (w : world xr) k me v0 v1 h0 h1 a0 a1 x y hd v phi acts,
  fair (turned2 phi) (turned2_rate phi) me w -> Forall (fun p => length (snd p) = 2%nat) acts ->
  paired_runs me k (turned2 phi) (turned2_rate phi)
    (run w (dubins2d_aircraft k me (Fin v0) (Fin v1) (Fin h0) (Fin h1) (Fin a0) (Fin a1) (Fin x) (Fin y) (Fin hd) (Fin v)) (array_acts acts))
    (run w (dubins2d_aircraft k me (Fin v0) (Fin v1) (Fin h0) (Fin h1) (Fin a0) (Fin a1)
              (Fin (rot_x phi x y)) (Fin (rot_y phi x y)) (Fin (hd + phi)) (Fin v)) (array_acts acts)).
Proof. exact dubins2d_turn_run. Qed.
Print Assumptions C100_dubins2d.

(** All explicit Runge-Kutta methods with fixed steps are such solvers. *)
Theorem C100_runge_kutta : forall phi tb, equivariant_solver (turned2 phi) (turned2_rate phi) (erk_world tb).
Proof. exact erk_turned2. Qed.
Print Assumptions C100_runge_kutta.

(** The three-dimensional aircraft about the vertical axis (Euler steps; speed limits positive and
    roll limits below a quarter turn, where the turn rate g tan(roll) / v is defined). *)
Theorem C100_dubins3d :
  forall (w : world xr) k v0 v1 g0 g1 r0 r1 gr0 gr1 rr0 rr1 a0 a1 x y z hd ga ro v phi acts,
  0 < v0 <= v1 -> - (PI / 2) < r0 <= r1 -> r1 < PI / 2 -> - (PI / 2) < ro < PI / 2 -> 0 < v ->
  Forall (fun p => length (snd p) = 3%nat) acts ->
  paired_runs "Euler" k (turned3 phi) (turned3_rate phi)
    (run w (dubins3d_aircraft k "Euler" (Fin v0) (Fin v1) (Fin g0) (Fin g1) (Fin r0) (Fin r1) (Fin gr0) (Fin gr1) (Fin rr0) (Fin rr1) (Fin a0) (Fin a1)
              (Fin x) (Fin y) (Fin z) (Fin hd) (Fin ga) (Fin ro) (Fin v)) (array_acts acts))
    (run w (dubins3d_aircraft k "Euler" (Fin v0) (Fin v1) (Fin g0) (Fin g1) (Fin r0) (Fin r1) (Fin gr0) (Fin gr1) (Fin rr0) (Fin rr1) (Fin a0) (Fin a1)
              (Fin (rot_x phi x y)) (Fin (rot_y phi x y)) (Fin z) (Fin (hd + phi)) (Fin ga) (Fin ro) (Fin v)) (array_acts acts)).
Proof. exact dubins3d_turn_run. Qed.
Print Assumptions C100_dubins3d.

Example C100_example : forall w, exists e1 e2,
  run w (dubins2d_aircraft 0 "Euler" (Fin 10) (Fin 100) (Fin (-1)) (Fin 1) (Fin (-5)) (Fin 5) (Fin 3) (Fin 0) (Fin 0) (Fin 50))
    (array_acts [(2, [0; 7])]) = Ok e1 /\
  run w (dubins2d_aircraft 0 "Euler" (Fin 10) (Fin 100) (Fin (-1)) (Fin 1) (Fin (-5)) (Fin 5) (Fin 0) (Fin 3) (Fin (PI / 2)) (Fin 50))
    (array_acts [(2, [0; 7])]) = Ok e2 /\
  e_state e1 = A1 (map Fin [103; 0; 0; 60]) /\ e_state e2 = A1 (map Fin [0; 103; PI / 2; 60]).
Proof. exact C100_ex. Qed.

(** * C101 Mirror images *)

(** Left and right: the aircraft that starts mirrored in the x axis and gets the opposite turn
    commands flies the mirrored path. The limits of the turn command must be symmetric. *)
Theorem C101_dubins2d :
  forall (w : world xr) k me v0 v1 b a0 a1 x y hd v acts, 0 <= b ->
  fair mirrored2 (flipped [1; -1; -1; 1]) me w -> Forall (fun p => length (snd p) = 2%nat) acts ->
  paired_runs me k mirrored2 (flipped [1; -1; -1; 1])
    (run w (dubins2d_aircraft k me (Fin v0) (Fin v1) (Fin (- b)) (Fin b) (Fin a0) (Fin a1) (Fin x) (Fin y) (Fin hd) (Fin v)) (array_acts acts))
    (run w (dubins2d_aircraft k me (Fin v0) (Fin v1) (Fin (- b)) (Fin b) (Fin a0) (Fin a1)
              (Fin x) (Fin (- y)) (Fin (- hd)) (Fin v)) (array_acts (flip_acts [-1; 1] acts))).
Proof. exact dubins2d_mirror_run. Qed.
Print Assumptions C101_dubins2d.

Theorem C101_dubins3d :
  forall (w : world xr) k v0 v1 g0 g1 r gr0 gr1 b a0 a1 x y z hd ga ro v acts,
  0 < v0 <= v1 -> 0 < r < PI / 2 -> 0 <= b -> - (PI / 2) < ro < PI / 2 -> 0 < v ->
  Forall (fun p => length (snd p) = 3%nat) acts ->
  paired_runs "Euler" k mirrored3 (flipped [1; -1; 1; -1; 1; -1; 1])
    (run w (dubins3d_aircraft k "Euler" (Fin v0) (Fin v1) (Fin g0) (Fin g1) (Fin (- r)) (Fin r) (Fin gr0) (Fin gr1) (Fin (- b)) (Fin b) (Fin a0) (Fin a1)
              (Fin x) (Fin y) (Fin z) (Fin hd) (Fin ga) (Fin ro) (Fin v)) (array_acts acts))
    (run w (dubins3d_aircraft k "Euler" (Fin v0) (Fin v1) (Fin g0) (Fin g1) (Fin (- r)) (Fin r) (Fin gr0) (Fin gr1) (Fin (- b)) (Fin b) (Fin a0) (Fin a1)
              (Fin x) (Fin (- y)) (Fin z) (Fin (- hd)) (Fin ga) (Fin (- ro)) (Fin v)) (array_acts (flip_acts [1; -1; 1] acts))).
Proof. exact dubins3d_mirror_run. Qed.
Print Assumptions C101_dubins3d.

(** Spacecraft: above and below the orbital plane. *)
Theorem C101_cwh :
  forall (w : world xr) m n k me x y z vx vy vz, m <> 0 -> fair (flipped [1; 1; -1; 1; 1; -1]) (flipped [1; 1; -1; 1; 1; -1]) me w ->
  flipped_runs me k [1; 1; -1; 1; 1; -1] [1; 1; -1] w
    (cwh_spacecraft (Fin m) (Fin n) k me (Fin x) (Fin y) (Fin z) (Fin vx) (Fin vy) (Fin vz))
    (cwh_spacecraft (Fin m) (Fin n) k me (Fin x) (Fin y) (Fin (- z)) (Fin vx) (Fin vy) (Fin (- vz))).
Proof. exact cwh_mirror_run. Qed.
Print Assumptions C101_cwh.

(** The planar spacecraft on the other side of the target, pushing the other way. *)
Theorem C101_rotation2d :
  forall (w : world xr) m i al vl iw aw vw n k me jax x y th vx vy wz, m <> 0 -> i <> 0 ->
  fair (flipped rot_sg) (flipped rot_sg) me w ->
  flipped_runs me k rot_sg [-1; -1; 1] w
    (rot2d_spacecraft w (Fin m) (Fin i) (Fin al) (Fin vl) (Fin iw) (Fin aw) (Fin vw) (Fin n) k me jax (Fin x) (Fin y) (Fin th) (Fin vx) (Fin vy) (Fin wz))
    (rot2d_spacecraft w (Fin m) (Fin i) (Fin al) (Fin vl) (Fin iw) (Fin aw) (Fin vw) (Fin n) k me jax (Fin (- x)) (Fin (- y)) (Fin th) (Fin (- vx)) (Fin (- vy)) (Fin wz)).
Proof. exact rot2d_flip_run. Qed.
Print Assumptions C101_rotation2d.

(** The rigid spacecraft mirrored in the orbital plane. *)
Theorem C101_sixdof :
  forall (w0 : world xr) m I i0 i1 i2 A V al vl iw aw vw thr body n k me x y z q1 q2 q3 q4 vx vy vz wx wy wz,
  sd_ok m I i0 i1 i2 -> limit_arg A al -> limit_arg V vl -> fair (flipped six_sg) (flipped six_sg) me w0 -> 0 <= thr ->
  (let '(l0, l1, _) := wheel_limit vl iw vw i0 i1 i2 in 0 < l0 /\ 0 < l1) ->
  (let '(c0, c1, _) := inertia_mul i0 i1 i2 (wheel_limit al iw aw i0 i1 i2) in 0 <= c0 /\ 0 <= c1) ->
  flipped_runs me k six_sg six_ug w0
    (sixdof_build m I A V iw aw vw thr body n k me (x, y, z) ((q1, q2, q3), q4) (vx, vy, vz) (wx, wy, wz))
    (sixdof_build m I A V iw aw vw thr body n k me (x, y, - z) ((- q1, - q2, q3), q4) (vx, vy, - vz) (- wx, - wy, wz)).
Proof. exact sixdof_mirror_run. Qed.
Print Assumptions C101_sixdof.

(** Integrators: each axis by itself. *)
Theorem C101_integrator1d :
  forall (w : world xr) m c k me x vx g1, m <> 0 -> signs [g1] -> fair (flipped [g1; g1]) (flipped [g1; g1]) me w ->
  flipped_runs me k [g1; g1] [g1] w (integrator1d_body (Fin m) (Fin c) k me (Fin x) (Fin vx))
    (integrator1d_body (Fin m) (Fin c) k me (Fin (g1 * x)) (Fin (g1 * vx))).
Proof. exact integ1_flip_run. Qed.
Print Assumptions C101_integrator1d.

Theorem C101_integrator2d :
  forall (w : world xr) m c k me x y vx vy g1 g2, m <> 0 -> signs [g1; g2] -> fair (flipped [g1; g2; g1; g2]) (flipped [g1; g2; g1; g2]) me w ->
  flipped_runs me k [g1; g2; g1; g2] [g1; g2] w (integrator2d_body (Fin m) (Fin c) k me (Fin x) (Fin y) (Fin vx) (Fin vy))
    (integrator2d_body (Fin m) (Fin c) k me (Fin (g1 * x)) (Fin (g2 * y)) (Fin (g1 * vx)) (Fin (g2 * vy))).
Proof. exact integ2_flip_run. Qed.
Print Assumptions C101_integrator2d.

Theorem C101_integrator3d :
  forall (w : world xr) m c k me x y z vx vy vz g1 g2 g3, m <> 0 -> signs [g1; g2; g3] ->
  fair (flipped [g1; g2; g3; g1; g2; g3]) (flipped [g1; g2; g3; g1; g2; g3]) me w ->
  flipped_runs me k [g1; g2; g3; g1; g2; g3] [g1; g2; g3] w (integrator3d_body (Fin m) (Fin c) k me (Fin x) (Fin y) (Fin z) (Fin vx) (Fin vy) (Fin vz))
    (integrator3d_body (Fin m) (Fin c) k me (Fin (g1 * x)) (Fin (g2 * y)) (Fin (g3 * z)) (Fin (g1 * vx)) (Fin (g2 * vy)) (Fin (g3 * vz))).
Proof. exact integ3_flip_run. Qed.
Print Assumptions C101_integrator3d.

(** The premise about solvers holds for every explicit Runge-Kutta method. *)
Theorem C101_runge_kutta : forall tb, equivariant_solver mirrored2 (flipped [1; -1; -1; 1]) (erk_world tb) /\
  forall sg, equivariant_solver (flipped sg) (flipped sg) (erk_world tb).
Proof. exact (fun tb => conj (erk_mirrored2 tb) (fun sg => erk_flipped sg tb)). Qed.
Print Assumptions C101_runge_kutta.

Example C101_example : forall w, exists e1 e2,
  (e <- cwh_spacecraft (Fin 1) (Fin (1/2)) 0 "Euler" (Fin 3) (Fin 1) (Fin 4) (Fin 0) (Fin 2) (Fin 1) ;; run w e (array_acts [(2, [0; 5; 1])])) = Ok e1 /\
  (e <- cwh_spacecraft (Fin 1) (Fin (1/2)) 0 "Euler" (Fin 3) (Fin 1) (Fin (-4)) (Fin 0) (Fin 2) (Fin (-1)) ;; run w e (array_acts [(2, [0; 5; -1])])) = Ok e2 /\
  e_state e1 = A1 (map Fin [3; 5; 6; 17/2; 4; 1]) /\ e_state e2 = A1 (map Fin [3; 5; -6; 17/2; 4; -1]).
Proof. exact C101_ex. Qed.
