(** Properties C103, C104: work and energy of the relative motion, angular momentum of the
    six-degrees-of-freedom spacecraft. *)
From Coq Require Import String List Bool Arith ZArith Lia Reals Lra.
From Coquelicot Require Import Coquelicot.
From Verif Require Import PyBase Num Arr BaseModel Spec SpecBase XReal Cwh Utils SixDof SpecRk SpecCwh SpecSixDof SpecFlow SpecWork
  SixDofProps WorkLemmas XTac.
Import List ListNotations.
Local Open Scope R_scope.
Local Hint Extern 0 (Num xr) => exact (XR Fin) : typeclass_instances.

(** * C103 Work and energy *)

(** Along every solution of the implemented equations under a constant thrust, mass times the
    change of energy is the work done by the thrust. *)
Theorem C103_equations :
  forall m n samples method d sol fx fy fz, m <> 0 ->
    cwh_dyn (Fin m) (Fin n) samples method = Ok d -> length (sol 0) = 6%nat ->
    solves d (A1 (map Fin [fx; fy; fz])) sol ->
    forall t, m * (hill_energy n (sol t) - hill_energy n (sol 0)) = work (fx, fy, fz) (sol 0) (sol t).
Proof. exact cwh_work. Qed.
Print Assumptions C103_equations.

(** One step of the entity from any state with a solver that makes no error: the energy
    changes by the work of the saturated thrust. *)
Theorem C103_step :
  forall (w : world xr) m n samples a1 a2 a3 a4 a5 a6 e0 (e : entity xr) h s fx fy fz, m <> 0 -> n <> 0 ->
    cwh_spacecraft (Fin m) (Fin n) samples "RK45" a1 a2 a3 a4 a5 a6 = Ok e0 ->
    e_dyn e = e_dyn e0 -> e_cmin e = e_cmin e0 -> e_cmax e = e_cmax e0 ->
    (forall gx gy gz, exact_on w (fun t x => compute_state_dot (e_dyn e0) t x (A1 (map Fin [gx; gy; gz])))) ->
    length s = 6%nat -> e_state e = A1 (map Fin s) ->
    let o := entity_step w e (Fin h) (AArr (A1 (map Fin [fx; fy; fz]))) in
    o_res o = Ok tt /\ exists s', length s' = 6%nat /\ e_state (o_entity o) = A1 (map Fin s') /\
      m * (hill_energy n s' - hill_energy n s) = work (clipR (-1) 1 fx, clipR (-1) 1 fy, clipR (-1) 1 fz) s s'.
Proof. exact cwh_step_work. Qed.
Print Assumptions C103_step.

(** Without thrust, any number of steps of any lengths keep the energy. *)
Theorem C103_coasting :
  forall (w : world xr) m n samples a1 a2 a3 a4 a5 a6 e0 hs, m <> 0 -> n <> 0 ->
    cwh_spacecraft (Fin m) (Fin n) samples "RK45" a1 a2 a3 a4 a5 a6 = Ok e0 ->
    (forall gx gy gz, exact_on w (fun t x => compute_state_dot (e_dyn e0) t x (A1 (map Fin [gx; gy; gz])))) ->
    forall (e : entity xr) s, e_dyn e = e_dyn e0 -> e_cmin e = e_cmin e0 -> e_cmax e = e_cmax e0 ->
    length s = 6%nat -> e_state e = A1 (map Fin s) ->
    exists e' s', run w e (map (fun h => (Fin h, AArr (A1 (map Fin [0; 0; 0])))) hs) = Ok e' /\
      length s' = 6%nat /\ e_state e' = A1 (map Fin s') /\ hill_energy n s' = hill_energy n s.
Proof. exact cwh_run_energy. Qed.
Print Assumptions C103_coasting.

(** Euler steps miss the balance by exactly the mass times h^2 times the energy form of the
    reported derivative. *)
Theorem C103_euler_error :
  forall (w : world xr) m n samples a1 a2 a3 a4 a5 a6 e0 (e : entity xr) h s fx fy fz, m <> 0 ->
    (samples <= 0)%Z ->
    cwh_spacecraft (Fin m) (Fin n) samples "Euler" a1 a2 a3 a4 a5 a6 = Ok e0 ->
    e_dyn e = e_dyn e0 -> e_cmin e = e_cmin e0 -> e_cmax e = e_cmax e0 ->
    length s = 6%nat -> e_state e = A1 (map Fin s) ->
    let o := entity_step w e (Fin h) (AArr (A1 (map Fin [fx; fy; fz]))) in
    o_res o = Ok tt /\ exists s' ds, length s' = 6%nat /\
      e_state (o_entity o) = A1 (map Fin s') /\ e_sdot (o_entity o) = A1 (map Fin ds) /\
      m * (hill_energy n s' - hill_energy n s)
      = work (clipR (-1) 1 fx, clipR (-1) 1 fy, clipR (-1) 1 fz) s s' + m * h^2 * hill_energy n ds.
Proof. exact cwh_euler_work. Qed.
Print Assumptions C103_euler_error.

(** So one Euler step without thrust changes the energy. *)
Example C103_euler_ex :
  forall w : world xr, exists e o s',
    cwh_spacecraft (Fin 12) (Fin 1) 0 "Euler" (Fin 1) (Fin 0) (Fin 0) (Fin 0) (Fin 0) (Fin 0) = Ok e /\
    o = entity_step w e (Fin 1) (AArr (A1 (map Fin [0; 0; 0]))) /\ o_res o = Ok tt /\
    e_state (o_entity o) = A1 (map Fin s') /\
    hill_energy 1 s' = hill_energy 1 [1; 0; 0; 0; 0; 0] + 9 / 2.
Proof. exact cwh_euler_energy_refuted. Qed.

(** Thrust 1 along x for half an orbit from rest at the origin, n = m = 1. *)
Example C103_ex :
  let s' := cw_forced 1 1 0 0 [0; 0; 0; 0; 0; 0] PI in
  s' = [2; -2 * PI; 0; 0; -4; 0] /\ hill_energy 1 s' = 2 /\ work (1, 0, 0) [0; 0; 0; 0; 0; 0] s' = 2.
Proof. exact work_example. Qed.

(** * C104 Angular momentum *)

(** Below the rate limits, along every solution of the implemented equations under a constant
    command (f, M): the angular momentum in space changes at the rate of the applied moment
    turned into space axes, and the rotational energy at the rate of its power. *)
Theorem C104_equations :
  forall m I i0 i1 i2 lim n body samples method d f M sol, sd_ok m I i0 i1 i2 ->
    sixdof_dyn (Fin m) I (fin3 lim) (Fin n) body samples method = Ok d ->
    length (sol 0) = 13%nat -> solves d (A1 (map Fin (sd_ctrl f M))) sol ->
    (forall t, strictly_within lim (sd_rate (sol t))) ->
    forall t, (forall k, is_derive (fun t => coord k (momentum i0 i1 i2 (sol t))) t (coord k (spin (sd_quat (sol t)) M))) /\
      is_derive (fun t => spin_energy i0 i1 i2 (sol t)) t (dot3 M (sd_rate (sol t))).
Proof. exact sixdof_momentum. Qed.
Print Assumptions C104_equations.

(** Without moments it is constant in space, whatever the thrust. *)
Theorem C104_conserved :
  forall m I i0 i1 i2 lim n body samples method d f sol, sd_ok m I i0 i1 i2 ->
    sixdof_dyn (Fin m) I (fin3 lim) (Fin n) body samples method = Ok d ->
    length (sol 0) = 13%nat -> solves d (A1 (map Fin (sd_ctrl f (0, 0, 0)))) sol ->
    (forall t, strictly_within lim (sd_rate (sol t))) ->
    forall t, momentum i0 i1 i2 (sol t) = momentum i0 i1 i2 (sol 0).
Proof. exact sixdof_momentum_kept. Qed.
Print Assumptions C104_conserved.

(** One step of the entity with a solver that makes no error, along a solution below the limits. *)
Theorem C104_step :
  forall (w0 : world xr) m I i0 i1 i2 A V al vl iw aw vw thr body n samples p q v w e f phi h,
    sd_ok m I i0 i1 i2 -> limit_arg A al -> limit_arg V vl ->
    sixdof_build m I A V iw aw vw thr body n samples "RK45" p q v w = Ok e ->
    let acc := wheel_limit al iw aw i0 i1 i2 in
    SpecSixDof.within acc (0, 0, 0) -> 0 < i0 -> 0 < i1 -> 0 < i2 ->
    let u := A1 (map Fin (sd_ctrl (clipc (neg3 (thr, thr, thr)) (thr, thr, thr) f) (0, 0, 0))) in
    exact_on w0 (fun t x => compute_state_dot (e_dyn e) t x u) ->
    phi 0 = sd_state p q v w -> solves (e_dyn e) u phi ->
    (forall t, strictly_within (wheel_limit vl iw vw i0 i1 i2) (sd_rate (phi t))) ->
    let o := entity_step w0 e (Fin h) (AArr (A1 (map Fin (sd_ctrl f (0, 0, 0))))) in
    o_res o = Ok tt /\ exists s', e_state (o_entity o) = A1 (map Fin s') /\
      momentum i0 i1 i2 s' = momentum i0 i1 i2 (sd_state p q v w) /\
      spin_energy i0 i1 i2 s' = spin_energy i0 i1 i2 (sd_state p q v w).
Proof. exact sixdof_step_momentum. Qed.
Print Assumptions C104_step.

(** Euler steps do not have this property: moments of inertia 1, 2, 3,
    rates 1 and no moments, one step of one second takes the squared length of the angular
    momentum from 14 to 20. *)
Example C104_euler_ex :
  forall w0 : world xr, exists e p q v w,
    sixdof_build 1 (diag 1 2 3) (NAnum (PyInt 1)) (NAnum (PyInt 9)) 10 10 10 1 true 0 0 "Euler"
      (0, 0, 0) ((0, 0, 0), 1) (0, 0, 0) (1, 1, 1) = Ok e /\
    let o := entity_step w0 e (Fin 1) (AArr (A1 (map Fin (sd_ctrl (0, 0, 0) (0, 0, 0))))) in
    o_res o = Ok tt /\ e_state (o_entity o) = A1 (map Fin (sd_state p q v w)) /\
    dot3 (inertia_mul 1 2 3 (1, 1, 1)) (inertia_mul 1 2 3 (1, 1, 1)) = 14 /\
    dot3 (inertia_mul 1 2 3 w) (inertia_mul 1 2 3 w) = 20.
Proof. exact sixdof_euler_momentum_refuted. Qed.

(** Steady rotation about the third principal axis. *)
Example C104_ex : exists d phi,
  sixdof_dyn (Fin 1) (diag 1 2 3) (fin3 (9, 9, 9)) (Fin 1) true 0 "RK45" = Ok d /\
  solves d (A1 (map Fin (sd_ctrl (0, 0, 0) (0, 0, 0)))) phi /\
  phi 0 = sd_state (5, 0, 0) ((0, 0, 0), 1) (0, 1, 0) (0, 0, 2) /\
  forall t, momentum 1 2 3 (phi t) = (0, 0, 6).
Proof. exact momentum_example. Qed.
