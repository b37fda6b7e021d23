(** Property C122: many steps of the planar spacecraft with rotation in binary64. *)
From Coq Require Import String ZArith Reals List.
From Flocq Require Import Core.Core IEEE754.BinarySingleNaN.
From Verif Require Import PyBase Num Arr BaseModel Cwh Rot2d Float64 XTac SpecCwh SpecRound SpecFly SpecSingle SpecSteer FlyEx SingleEx SteerRun SteerEx.
Import List ListNotations.
Local Open Scope R_scope.

(** Any list of steps of a CWHRotation2dSpacecraft with the Euler integrator, from any state it can be in: every step
    completes, and the final state is within [E (length l)] of the flight [steer] computes without rounding, as long as
    that flight stays within [B - 1] and the bound is at most 1. Each step adds an error of single precision, relative to
    the motion of the step; what has accumulated grows by at most the factor [1 + H * K] per step. *)
Theorem C122_steer : forall (lm : libm) (w : world f64) m inertia al vl iw aw vw acc vel n samples jax x0 y0 th0 vx0 vy0 wz0 e0 s0 acts e
    x y th vx vy wz B H Q l,
  accurate lm -> rot2d_spacecraft (N := F64 lm) w m inertia al vl iw aw vw n samples "Euler" jax x0 y0 th0 vx0 vy0 wz0 = Ok e0 ->
  rot2d_limit (N := F64 lm) al iw aw inertia = Ok acc -> rot2d_limit (N := F64 lm) vl iw vw inertia = Ok vel ->
  run (N := F64 lm) w (set_state e0 s0) acts = Ok e -> (samples <= 0)%Z ->
  is_finite m = true -> bpow radix2 (-100) <= Rabs (B2R m) -> within 40 inertia -> bpow radix2 (-100) <= B2R inertia ->
  within 40 acc -> within 40 vel -> 0 <= B2R acc -> 0 <= B2R vel -> within 0 n ->
  Forall (fun a : f64 => is_finite a = true) [x; y; th; vx; vy; wz] -> e_state e = A1 [x; y; th; vx; vy; wz] ->
  Rabs (B2R th) <= B -> Rabs (B2R wz) <= B2R vel -> 4 <= B <= bpow radix2 90 -> 0 <= H ->
  let M := B2R (Bmult mode_NE acc inertia) in
  0 <= M <= Q * B2R inertia ->
  let S := {| s_mass := B2R m; s_inertia := B2R inertia; s_acc := B2R acc; s_vel := B2R vel; s_moment := M; s_n := B2R n |} in
  let p := {| tx := B2R x; ty := B2R y; tth := B2R th; tvx := B2R vx; tvy := B2R vy; tw := B2R wz |} in
  let E := steer_error B H (steer_lip (B2R m) (B2R n)) Q in
  Forall (steer_ok H) l -> E (length l) <= 1 ->
  (forall l1 l2, l = l1 ++ l2 -> sized (B - 1) (steer S p (map steer_num l1))) ->
  exists e' s', run (N := F64 lm) w e (map steer_act l) = Ok e' /\ e_state e' = A1 s' /\ steers (E (length l)) s' (steer S p (map steer_num l)).
Proof. exact steer_run. Qed.
Print Assumptions C122_steer.

(** A spacecraft of mass 2 and moment of inertia 1, 50 m away, turned and spinning: whatever it is commanded for a hundred
    steps of at most 10 ms, it ends up within 5 mm of the exact flight. *)
Example C122_steer_example : exists lm, accurate lm /\ forall (w : world f64) l, Forall (steer_ok (1 / 100)) l -> (length l <= 100)%nat ->
  exists e0 e' s', craft lm w false = Ok e0 /\
  run (N := F64 lm) w (set_state e0 (A1 [fl 50 1; fl (-20) 1; fl 1 2; fl 2 1; fl (-1) 1; fl 1 4])) (map steer_act l) = Ok e' /\ e_state e' = A1 s' /\
  steers (1 / 200) s' (steer {| s_mass := 2; s_inertia := 1; s_acc := 1; s_vel := 1; s_moment := 1; s_n := 1 / 1024 |}
    {| tx := 50; ty := -20; tth := 1 / 2; tvx := 2; tvy := -1; tw := 1 / 4 |} (map steer_num l)).
Proof. exact (ex_intro _ _ (conj accurate_ex (fun w => steer_ex lm_grid w accurate_ex))). Qed.
Print Assumptions C122_steer_example.
