(** Properties C82-C83: the integration methods compared, and commands that are not numbers. *)
From Coq Require Import String List Bool Arith ZArith Lia Reals Lra.
From Flocq Require Import Core.Core.
From Verif Require Import PyBase Num Arr BaseModel Spec SpecBase XReal Float64 XTac SpecRk Rot2d Cwh SpecMethod MethodLemmas NanLemmas.
Import List ListNotations.
Local Open Scope R_scope.

(** Exact arithmetic; the float32 cast is whatever the quantified [r32] says. *)
Local Hint Extern 0 (Num xr) => match goal with r : R -> xr |- _ => exact (XR r) end : typeclass_instances.

(** * C82 The integration methods solve the same equation *)

(** Full statement: when scipy and jax run one and the same numerical method, an entity
    stepped with RK45_JAX goes where the same entity stepped with RK45 goes. False: RK45_JAX
    integrates the equation without the state and derivative limits. Here both solvers
    take one midpoint step; the planar spacecraft turns at its speed limit 1 and is
    commanded to speed up. *)
Theorem C82_same_equation_refuted : exists (e e1 e2 : entity xr) th1 th2,
  let w := erk_world midpoint in let a := AArr (A1 (map Fin [0; 0; 1])) in
  rot2d_spacecraft (N := XR Fin) w (Fin 1) (Fin 1) (Fin 1) (Fin 1) (Fin 1) (Fin 1) (Fin 1) (Fin 0) 0 "RK45" true
    (Fin 0) (Fin 0) (Fin 0) (Fin 0) (Fin 0) (Fin 1) = Ok e /\
  run (N := XR Fin) w (entity_with_method e "RK45") [(Fin 1, a)] = Ok e1 /\
  run (N := XR Fin) w (entity_with_method e "RK45_JAX") [(Fin 1, a)] = Ok e2 /\
  bnth (e_state e1) 2 = Some (Fin th1) /\ bnth (e_state e2) 2 = Some (Fin th2) /\ th1 = 1 /\ th2 = 3 / 2.
Proof. exact methods_differ. Qed.
Print Assumptions C82_same_equation_refuted.

(** For dynamics without limits (CWH, integrators, Sun) it holds: same outcome, same next
    state, same state derivative. Missing: dynamics with limits, for which it fails. *)
Theorem C82_unlimited_partial :
  forall (r32 : R -> xr) (w : world xr) (e : entity xr) h s l, same_method r32 w ->
    d_min (e_dyn e) = no_min -> d_max (e_dyn e) = no_max -> d_sdmin (e_dyn e) = no_min -> d_sdmax (e_dyn e) = no_max ->
    d_use_jax (e_dyn e) = true -> (d_samples (e_dyn e) <= 0)%Z -> e_state e = A1 (map Fin s) ->
    (forall c, np_clip (A1 l) (e_cmin e) (e_cmax e) = Ok c -> regular (fun t x => d_raw (e_dyn e) t x c) (length s)) ->
    let o1 := entity_step w (entity_with_method e "RK45") (Fin h) (AArr (A1 l)) in
    let o2 := entity_step w (entity_with_method e "RK45_JAX") (Fin h) (AArr (A1 l)) in
    o_res o1 = o_res o2 /\ e_state (o_entity o1) = e_state (o_entity o2) /\ e_sdot (o_entity o1) = e_sdot (o_entity o2).
Proof. exact methods_agree. Qed.
Print Assumptions C82_unlimited_partial.

(** Every explicit Runge-Kutta method whose weights sum to one is such a pair of solvers. *)
Theorem C82_solvers_exist : forall (r32 : R -> xr) tb, consistent tb -> same_method r32 (erk_world tb).
Proof. exact erk_same_method. Qed.
Print Assumptions C82_solvers_exist.

Example C82_example : consistent midpoint.
Proof. exact midpoint_consistent. Qed.

(** * C83 Commands that are not numbers are noticed *)

(** Full statement: a command containing NaN is refused or at least warned about. False: in
    binary64, one NaN among the thrusts of a resting spacecraft is accepted silently and
    after one step position and velocity are all NaN. *)
Theorem C83_noticed_refuted : exists e : entity f64,
  cwh_spacecraft (N := F64 lm0) (fl 12 1) (fl 1 1000) 0 "Euler" (fl 100 1) (fl 0 1) (fl 0 1) (fl 0 1) (fl 0 1) (fl 0 1) = Ok e /\
  let o := entity_step (N := F64 lm0) (euler_world (N := F64 lm0)) e (fl 1 1) (AArr (A1 [@nnan f64 (F64 lm0); fl 0 1; fl 0 1])) in
  o_warned o = false /\ o_res o = Ok tt /\ all_nan (N := F64 lm0) (e_state (o_entity o)).
Proof. exact nan_unnoticed. Qed.
Print Assumptions C83_noticed_refuted.

(** It is a law: one NaN thrust, at any time, makes all six state elements NaN for ever
    after, in every arithmetic in which NaN is contagious (binary64 is one). *)
Theorem C83_poisons :
  forall T (N : Num T) (P : NumNan T) (w : world T) m n samples x y z vx vy vz e, (samples <= 0)%Z ->
    cwh_spacecraft m n samples "Euler" x y z vx vy vz = Ok e ->
    forall past h l future e1 e2, run w e past = Ok e1 -> length l = 3%nat -> existsb nisnan l = true ->
      run w e1 ((h, AArr (A1 l)) :: future) = Ok e2 -> all_nan (e_state e2).
Proof. exact (fun T N P => @cwh_nan_poison T N P). Qed.
Print Assumptions C83_poisons.

Theorem C83_contagious_binary64 : forall lm, @NumNan f64 (F64 lm).
Proof. exact F64_nan. Qed.
Print Assumptions C83_contagious_binary64.

(** No entity of the library warns about a command made of NaNs only. *)
Theorem C83_silent :
  forall T (N : Num T) (O : NumOrd T) (w : world T) (e : entity T) h l,
    fits (e_cmin e) (A1 l) -> fits (e_cmax e) (A1 l) -> Forall (fun x => nisnan x = true) l ->
    o_warned (entity_step w e h (AArr (A1 l))) = false.
Proof. exact (fun T N O => @all_nan_silent T N O). Qed.
Print Assumptions C83_silent.
