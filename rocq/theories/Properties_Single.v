(** Property C116: one step of a rotating spacecraft in binary64. *)
From Coq Require Import String ZArith Reals List.
From Flocq Require Import Core.Core IEEE754.BinarySingleNaN.
From Verif Require Import PyBase Num Arr BaseModel Cwh Rot2d Utils SixDof Float64 XTac SpecCwh SpecSixDof SpecRound SpecFly SpecSingle FlyEx
  SingleRound SingleEx SingleSix SingleSixEx.
Import List ListNotations.
Local Open Scope R_scope.

(** A CWHRotation2dSpacecraft does not move as precisely as a CWHSpacecraft. Coasting at 1/10 for a second it
    ends up more than 1/1000000000 away from where its velocity takes it, whatever the mathematical library, because
    its rates are cast to float32 in every step; the CWHSpacecraft with the same mass, position and velocity is right
    to 1/1000000000000000. *)
Theorem C116_refuted : exists m n inertia lim x v h zero, B2R x = 0 /\ B2R h = 1 /\
  forall (lm : libm) (w : world f64), accurate lm ->
  (exists e0 s', rot2d_spacecraft (N := F64 lm) w m inertia lim lim lim lim lim n 0 "Euler" false zero zero zero zero zero zero = Ok e0 /\
     e_state (o_entity (entity_step (N := F64 lm) w (set_state e0 (A1 [x; zero; zero; v; zero; zero])) h (AArr (A1 [zero; zero; zero])))) = A1 s' /\
     1 / 1000000000 < Rabs (B2R (nth 0 s' zero) - (0 + 1 * B2R v))) /\
  (exists e0 s', cwh_spacecraft (N := F64 lm) m n 0 "Euler" zero zero zero zero zero zero = Ok e0 /\
     e_state (o_entity (entity_step (N := F64 lm) w (set_state e0 (A1 [x; zero; zero; v; zero; zero])) h (AArr (A1 [zero; zero; zero])))) = A1 s' /\
     Rabs (B2R (nth 0 s' zero) - (0 + 1 * B2R v)) <= 1 / 1000000000000000).
Proof. exact single_refuted. Qed.
Print Assumptions C116_refuted.

(** Every Euler step of a CWHRotation2dSpacecraft, from any state: the step completes, and every number of the
    new state is what the equations of motion give, up to about a four millionth of the change in this step and a
    relative 2^-46 of the old value. The thrust is clipped to [-1, 1], the moment to the limit that the constructor
    computed, and the rotation rate and its change to the limits [vel] and [acc].
    Missing: the precision of C106, which is false; other integrators. *)
Theorem C116_rot2d_partial : forall (lm : libm) (w : world f64) m inertia al vl iw aw vw acc vel n samples jax x0 y0 th0 vx0 vy0 wz0 e0 s0 acts e
    h x y th vx vy wz (fx fy mz : f64),
  accurate lm -> rot2d_spacecraft (N := F64 lm) w m inertia al vl iw aw vw n samples "Euler" jax x0 y0 th0 vx0 vy0 wz0 = Ok e0 ->
  rot2d_limit (N := F64 lm) al iw aw inertia = Ok acc -> rot2d_limit (N := F64 lm) vl iw vw inertia = Ok vel ->
  run (N := F64 lm) w (set_state e0 s0) acts = Ok e -> (samples <= 0)%Z ->
  is_finite m = true -> bpow radix2 (-100) <= Rabs (B2R m) -> within 40 inertia -> bpow radix2 (-100) <= Rabs (B2R inertia) ->
  within 40 acc -> within 40 vel -> 0 <= B2R acc -> 0 <= B2R vel -> within 0 n -> within 90 h ->
  Forall (within 90) [x; y; th; vx; vy; wz] -> Forall (fun f : f64 => is_finite f = true) [fx; fy; mz] ->
  e_state e = A1 [x; y; th; vx; vy; wz] ->
  let o := entity_step (N := F64 lm) w e h (AArr (A1 [fx; fy; mz])) in
  let M := B2R (Bmult mode_NE acc inertia) in
  exists s', o_res o = Ok tt /\ e_state (o_entity o) = A1 s' /\
    rot2d_follows (B2R m) (B2R inertia) (B2R acc) (B2R vel) (B2R n) (B2R h) (map B2R [x; y; th; vx; vy; wz])
      [clipR (-1) 1 (B2R fx); clipR (-1) 1 (B2R fy); clipR (- M) M (B2R mz)] s'.
Proof. exact rot2d_round_run. Qed.
Print Assumptions C116_rot2d_partial.

(** A spacecraft of mass 2 and moment of inertia 1, 1000 m away, turned by half a radian and spinning, with full thrust
    in x and a moment: its new x is within 1/100000 of 1000 + 2. *)
Example C116_rot2d_example : exists lm, accurate lm /\ forall w : world f64, exists e0 s', craft lm w false = Ok e0 /\
  e_state (o_entity (entity_step (N := F64 lm) w (set_state e0 (A1 [fl 1000 1; fl (-500) 1; fl 1 2; fl 2 1; fl (-1) 1; fl 1 4])) (fl 1 1)
    (AArr (A1 [fl 3 1; fl 0 1; fl 1 8])))) = A1 s' /\
  rot2d_follows 2 1 1 1 (1 / 1024) 1 [1000; -500; 1 / 2; 2; -1; 1 / 4] [1; 0; 1 / 8] s' /\
  Rabs (B2R (nth 0 s' (fl 0 1)) - 1002) <= 1 / 100000.
Proof. exact (ex_intro _ _ (conj accurate_ex (fun w => craft_ex lm_grid w accurate_ex))). Qed.

(** Every Euler step of a SixDOFSpacecraft, from any state and in either thrust convention: the step completes, and every
    number of the new state is what the equations of motion give, to the same precision. The command is clipped to the
    limits [l1 .. l6] the constructor computed; the rotation rates stay within [v0 .. v2]. With thrust in body axes the
    velocity follows the thrust turned by the attitude quaternion, which need not have norm 1.
    Missing: the precision of C106, which is false; other integrators. *)
Theorem C116_sixdof_partial : forall (lm : libm) (w : world f64) m I al vl iw aw vw thr body n samples x0 y0 z0 a0 b0 c0 d0 vx0 vy0 vz0 wx0 wy0 wz0 e0 st acts e
    i0 i1 i2 v0 v1 v2 l1 l2 l3 l4 l5 l6 h x y z q1 q2 q3 q4 vx vy vz wx wy wz (f1 f2 f3 f4 f5 f6 : f64),
  sixdof_spacecraft (N := F64 lm) m I al vl iw aw vw thr body n samples "Euler" x0 y0 z0 a0 b0 c0 d0 vx0 vy0 vz0 wx0 wy0 wz0 = Ok e0 ->
  run (N := F64 lm) w (set_state e0 st) acts = Ok e -> (samples <= 0)%Z ->
  e_cmax e0 = A1 [l1; l2; l3; l4; l5; l6] ->
  (let inf := @npinf f64 (F64 lm) in d_max (e_dyn e0) = A1 [inf; inf; inf; inf; inf; inf; inf; inf; inf; inf; v0; v1; v2]) ->
  i0 = m00 I -> i1 = m11 I -> i2 = m22 I ->
  Forall (within 60) [l1; l2; l3; l4; l5; l6] -> is_finite m = true -> bpow radix2 (-100) <= Rabs (B2R m) ->
  Forall (within 20) [i0; i1; i2] -> Forall (fun i : f64 => bpow radix2 (-20) <= Rabs (B2R i)) [i0; i1; i2] ->
  Forall (fun v : f64 => is_finite v = true) [v0; v1; v2] -> within 0 n -> within 80 h ->
  Forall (within 80) [x; y; z; vx; vy; vz] -> Forall (within 20) [q1; q2; q3; q4; wx; wy; wz] ->
  Forall (fun f : f64 => is_finite f = true) [f1; f2; f3; f4; f5; f6] ->
  e_state e = A1 [x; y; z; q1; q2; q3; q4; vx; vy; vz; wx; wy; wz] ->
  let o := entity_step (N := F64 lm) w e h (AArr (A1 [f1; f2; f3; f4; f5; f6])) in
  let u (f l : f64) := clipR (- B2R l) (B2R l) (B2R f) in
  exists s', o_res o = Ok tt /\ e_state (o_entity o) = A1 s' /\
    sixdof_follows body (B2R m) (B2R i0) (B2R i1) (B2R i2) (B2R v0) (B2R v1) (B2R v2) (B2R n) (B2R h)
      (map B2R [x; y; z; q1; q2; q3; q4; vx; vy; vz; wx; wy; wz]) [u f1 l1; u f2 l2; u f3 l3; u f4 l4; u f5 l5; u f6 l6] s'.
Proof. exact sixdof_round_run. Qed.
Print Assumptions C116_sixdof_partial.

(** A spacecraft turned so that its x axis points along y, with full thrust in its own x: its velocity grows in y. *)
Example C116_sixdof_example : forall (lm : libm) (w : world f64), exists e0 s', ship lm = Ok e0 /\
  e_state (o_entity (entity_step (N := F64 lm) w (set_state e0 (A1 [fl 1000 1; fl (-500) 1; fl 200 1; fl 1 2; fl 1 2; fl 1 2; fl 1 2;
    fl 2 1; fl 0 1; fl 1 1; fl 1 4; fl (-1) 4; fl 1 2])) (fl 1 1) (AArr (A1 [fl 3 1; fl 0 1; fl 0 1; fl 1 8; fl 5 1; fl 0 1])))) = A1 s' /\
  sixdof_follows true 2 1 2 4 1 1 1 (1 / 1024) 1 [1000; -500; 200; 1 / 2; 1 / 2; 1 / 2; 1 / 2; 2; 0; 1; 1 / 4; -1 / 4; 1 / 2] [1; 0; 0; 1 / 8; 2; 0] s' /\
  Rabs (B2R (nth 8 s' (fl 0 1)) - (1 / 2 - 1 / 256)) <= 1 / 1000000.
Proof. exact ship_ex. Qed.
