(** Properties C22-C24: the 2d rotational spacecraft. *)
From Coq Require Import String List Bool Arith ZArith Lia Reals Lra.
From Flocq Require Import Core.Core IEEE754.BinarySingleNaN.
From Verif Require Import PyBase Num Arr BaseModel Spec SpecBase SpecWrap XReal Float64 NumOrdLemmas Cwh Rot2d SpecRk
  SpecCwh XTac Rot2dLemmas RotProps.
Import List ListNotations.
Local Open Scope R_scope.

(** Exact arithmetic; the float32 casts round by the quantified function [rd]. *)
Local Hint Extern 0 (Num xr) => match goal with r : R -> R |- _ => exact (XR (fun x => Fin (r x))) end : typeclass_instances.

(** * C22 Equations of motion *)

Theorem C22_equations :
  forall (rd : R -> R) (w : world xr) (m inertia acc vel n : R) samples method jax d,
    m <> 0 -> inertia <> 0 ->
    rot2d_dyn w (Fin m) (Fin inertia) (Fin acc) (Fin vel) (Fin n) samples method jax = Ok d ->
    forall t x y th vx vy wz fx fy mz,
      compute_state_dot d t (A1 (map Fin [x; y; th; vx; vy; wz])) (A1 (map Fin [fx; fy; mz])) = Ok (A1 (map Fin
        [rd (rd vx);
         rd (rd vy);
         clipR (- vel) vel (rd wz);
         rd (3 * n^2 * rd x + 2 * n * rd vy) + (cos th * fx - sin th * fy) / m;
         rd (- 2 * n * rd vx) + (sin th * fx + cos th * fy) / m;
         stopR (- vel) vel wz (clipR (- acc) acc (rd 0 + mz / inertia))])).
Proof. exact rot2d_csd. Qed.
Print Assumptions C22_equations.

(** Without cast errors and away from the limits these are the textbook equations. *)
Theorem C22_ideal_equations :
  forall (w : world xr) (m inertia acc vel n : R) samples method jax d,
    m <> 0 -> inertia <> 0 ->
    rot2d_dyn (N := XR Fin) w (Fin m) (Fin inertia) (Fin acc) (Fin vel) (Fin n) samples method jax = Ok d ->
    forall t x y th vx vy wz fx fy mz, - vel < wz < vel -> - acc <= mz / inertia <= acc ->
      compute_state_dot (N := XR Fin) d t (A1 (map Fin [x; y; th; vx; vy; wz])) (A1 (map Fin [fx; fy; mz])) = Ok (A1 (map Fin
        [vx; vy; wz;
         3 * n^2 * x + 2 * n * vy + (cos th * fx - sin th * fy) / m;
         - 2 * n * vx + (sin th * fx + cos th * fy) / m;
         mz / inertia])).
Proof. exact rot2d_ideal. Qed.
Print Assumptions C22_ideal_equations.

(** The thrust contribution has the magnitude of the body thrust, whatever the heading. *)
Theorem C22_thrust_magnitude :
  forall (rd : R -> R) (w : world xr) (m inertia acc vel n : R) samples method jax d,
    m <> 0 -> inertia <> 0 ->
    rot2d_dyn w (Fin m) (Fin inertia) (Fin acc) (Fin vel) (Fin n) samples method jax = Ok d ->
    forall t x y th vx vy wz fx fy mz,
      exists ax ay bx by_ sd sd0,
        compute_state_dot d t (A1 (map Fin [x; y; th; vx; vy; wz])) (A1 (map Fin [fx; fy; mz])) = Ok sd /\
        compute_state_dot d t (A1 (map Fin [x; y; th; vx; vy; wz])) (A1 (map Fin [0; 0; mz])) = Ok sd0 /\
        bnth sd 3 = Some (Fin ax) /\ bnth sd 4 = Some (Fin ay) /\
        bnth sd0 3 = Some (Fin bx) /\ bnth sd0 4 = Some (Fin by_) /\
        (ax - bx)^2 + (ay - by_)^2 = (fx^2 + fy^2) / m^2.
Proof. exact rot2d_magnitude. Qed.
Print Assumptions C22_thrust_magnitude.

(** One Euler step of the spacecraft for arbitrary controls: clip the controls, add [h]
    times the limited derivative, limit the rate, wrap the heading. *)
Theorem C22_euler_step :
  forall (rd : R -> R) (w : world xr) (m inertia al vl iw aw vw n : R) samples jax x0 y0 th0 vx0 vy0 wz0 e,
    m <> 0 -> 0 < inertia -> (samples <= 0)%Z ->
    rot2d_spacecraft w (Fin m) (Fin inertia) (Fin al) (Fin vl) (Fin iw) (Fin aw) (Fin vw) (Fin n) samples "Euler" jax
      x0 y0 th0 vx0 vy0 wz0 = Ok e ->
    forall x y th vx vy wz fx fy mz h,
      e_state e = A1 (map Fin [x; y; th; vx; vy; wz]) ->
      let acc := Rmin al (iw * aw / inertia) in
      let vel := Rmin vl (iw * vw / inertia) in
      let gx := clipR (-1) 1 fx in let gy := clipR (-1) 1 fy in
      let gz := clipR (- acc * inertia) (acc * inertia) mz in
      let o := entity_step w e (Fin h) (AArr (A1 (map Fin [fx; fy; mz]))) in
      o_res o = Ok tt /\
      exists th',
        e_state (o_entity o) = A1 (map Fin
          [x + h * rd (rd vx); y + h * rd (rd vy); th';
           vx + h * (rd (3 * n^2 * rd x + 2 * n * rd vy) + (cos th * gx - sin th * gy) / m);
           vy + h * (rd (- 2 * n * rd vx) + (sin th * gx + cos th * gy) / m);
           clipR (- vel) vel (wz + h * stopR (- vel) vel wz (clipR (- acc) acc (rd 0 + gz / inertia)))]) /\
        - PI <= th' < PI /\ same_angle th' (th + h * clipR (- vel) vel (rd wz)).
Proof. exact rot2d_euler_craft. Qed.
Print Assumptions C22_euler_step.

(** Heading pi/2: body x thrust accelerates along Hill's y axis; the rate is limited. *)
Example C22_example :
  exists d, rot2d_dyn (N := XR Fin) (euler_world (N := XR Fin)) (Fin 2) (Fin 1) (Fin 1) (Fin 3) (Fin 1) 0 "Euler" false = Ok d /\
    compute_state_dot (N := XR Fin) d (Fin 0) (A1 (map Fin [1; 0; PI / 2; 0; 0; 5])) (A1 (map Fin [1; 0; 1 / 2]))
    = Ok (A1 (map Fin [0; 0; 3; 3; 1 / 2; 0])).
Proof. exact rot2d_example. Qed.

(** * C23 Rotational limits *)

(** The limits are the minimum of the configured limit and the wheel's capability. *)
Theorem C23_combined_limits :
  forall (rd : R -> R) (w : world xr) (m inertia al vl iw aw vw : R) n samples method jax x y th vx vy wz e,
    0 < inertia ->
    rot2d_spacecraft w (Fin m) (Fin inertia) (Fin al) (Fin vl) (Fin iw) (Fin aw) (Fin vw) n samples method jax
      x y th vx vy wz = Ok e ->
    let acc := Rmin al (iw * aw / inertia) in
    let vel := Rmin vl (iw * vw / inertia) in
    bnth (d_min (e_dyn e)) 5 = Some (Fin (- vel)) /\ bnth (d_max (e_dyn e)) 5 = Some (Fin vel) /\
    bnth (d_sdmin (e_dyn e)) 5 = Some (Fin (- acc)) /\ bnth (d_sdmax (e_dyn e)) 5 = Some (Fin acc) /\
    bnth (e_cmin e) 2 = Some (Fin (- acc * inertia)) /\ bnth (e_cmax e) 2 = Some (Fin (acc * inertia)).
Proof. exact rot2d_combined. Qed.
Print Assumptions C23_combined_limits.

(** After any steps, with any integration method and solver, in exact and in binary64
    arithmetic: the rate respects both the configured and the wheel velocity limit, the
    reported angular acceleration both acceleration limits (or they are NaN). *)
Theorem C23_rate_limits :
  forall T (N : Num T) (O : NumOrd T) (P : NumNeg T) (w : world T) m inertia al vl iw aw vw n samples method jax
         x y th vx vy wz e acts e',
    rot2d_spacecraft w m inertia al vl iw aw vw n samples method jax x y th vx vy wz = Ok e ->
    acts <> [] -> run w e acts = Ok e' ->
    forall qa qv, pydiv (nmul iw aw) inertia = Ok qa -> pydiv (nmul iw vw) inertia = Ok qv ->
      nleb n0 al = true -> nleb n0 vl = true -> nleb n0 qa = true -> nleb n0 qv = true ->
      (forall r, bnth (e_state e') 5 = Some r -> nisnan r = true \/
        (nleb (nneg vl) r = true /\ nleb r vl = true /\ nleb (nneg qv) r = true /\ nleb r qv = true)) /\
      (forall r, bnth (e_sdot e') 5 = Some r -> nisnan r = true \/
        (nleb (nneg al) r = true /\ nleb r al = true /\ nleb (nneg qa) r = true /\ nleb r qa = true)).
Proof. exact (fun T N O P => @rot2d_rate_bounds T N O P). Qed.
Print Assumptions C23_rate_limits.

(** A moment within the control limits produces exactly moment / inertia (exact casts of 0)
    as long as the rate is below its limit: the acceleration limiter never acts. *)
Theorem C23_moment_never_limited :
  forall (rd : R -> R) (w : world xr) (m inertia al vl iw aw vw n : R) samples method jax x0 y0 th0 vx0 vy0 wz0 e,
    m <> 0 -> 0 < inertia -> rd 0 = 0 ->
    rot2d_spacecraft w (Fin m) (Fin inertia) (Fin al) (Fin vl) (Fin iw) (Fin aw) (Fin vw) (Fin n) samples method jax
      x0 y0 th0 vx0 vy0 wz0 = Ok e ->
    forall t x y th vx vy wz fx fy mz lo hi vel,
      bnth (e_cmin e) 2 = Some (Fin lo) -> bnth (e_cmax e) 2 = Some (Fin hi) -> lo <= mz <= hi ->
      bnth (d_max (e_dyn e)) 5 = Some (Fin vel) -> - vel < wz < vel ->
      exists sd, compute_state_dot (e_dyn e) t (A1 (map Fin [x; y; th; vx; vy; wz])) (A1 (map Fin [fx; fy; mz])) = Ok sd /\
        bnth sd 5 = Some (Fin (mz / inertia)).
Proof. exact rot2d_no_limiter. Qed.
Print Assumptions C23_moment_never_limited.

(** The heading after any steps: [-pi, pi) in exact arithmetic, between the binary64
    numbers -np.pi and np.pi in binary64. *)
Theorem C23_heading_range :
  forall (rd : R -> R) (w : world xr) m inertia al vl iw aw vw n samples method jax x y th vx vy wz e acts e' r,
    rot2d_spacecraft w m inertia al vl iw aw vw n samples method jax x y th vx vy wz = Ok e ->
    acts <> [] -> run w e acts = Ok e' -> bnth (e_state e') 2 = Some (Fin r) -> - PI <= r < PI.
Proof. exact rot2d_heading. Qed.
Print Assumptions C23_heading_range.

Theorem C23_heading_range_binary64 :
  forall (lm : libm) (w : world f64) m inertia al vl iw aw vw n samples method jax x y th vx vy wz e acts e' r,
    rot2d_spacecraft (N := F64 lm) w m inertia al vl iw aw vw n samples method jax x y th vx vy wz = Ok e ->
    acts <> [] -> run (N := F64 lm) w e acts = Ok e' -> bnth (e_state e') 2 = Some r ->
    nisnan (Num := F64 lm) r = true \/
    (nleb (Num := F64 lm) (nneg (Num := F64 lm) (npi (Num := F64 lm))) r = true /\
     nleb (Num := F64 lm) r (npi (Num := F64 lm)) = true).
Proof. exact rot2d_heading64. Qed.
Print Assumptions C23_heading_range_binary64.

(** Wheel speed 100 with wheel inertia 1/50 and inertia 1 allows rate 2 although 3 is
    configured: full moment for three seconds saturates at 2. *)
Example C23_example :
  exists e e', rot2d_spacecraft (N := XR Fin) (euler_world (N := XR Fin)) (Fin 2) (Fin 1) (Fin 1) (Fin 3) (Fin (1 / 50))
      (Fin 100) (Fin 100) (Fin 1) 0 "Euler" false (Fin 0) (Fin 0) (Fin 0) (Fin 0) (Fin 0) (Fin 0) = Ok e /\
    run (N := XR Fin) (euler_world (N := XR Fin)) e (repeat (Fin 1, AArr (A1 (map Fin [0; 0; 7]))) 3) = Ok e' /\
    exists r, bnth (e_state e') 5 = Some (Fin r) /\ r = 2.
Proof. exact rot2d_limit_example. Qed.

(** * C24 Heading periodicity (rotational spacecraft) *)

Theorem C24_rotation2d_derivative :
  forall (rd : R -> R) (w : world xr) m inertia acc vel n samples method jax d (th : R) (k : Z),
    rot2d_dyn w m inertia acc vel n samples method jax = Ok d ->
    forall t x y vx vy wz u,
      compute_state_dot d t (A1 [x; y; Fin (th + 2 * PI * IZR k); vx; vy; wz]) u =
      compute_state_dot d t (A1 [x; y; Fin th; vx; vy; wz]) u.
Proof. exact (fun rd w m i a v n s me j d th k E => rot2d_turn rd w m i a v n s me j d _ th E (ex_intro _ k eq_refl)). Qed.
Print Assumptions C24_rotation2d_derivative.

(** Adding whole turns to the heading changes nothing at all in what follows, for any
    sequence of actions (also failing ones): the runs are equal. *)
Theorem C24_rotation2d_runs :
  forall (rd : R -> R) (w : world xr) m inertia acc vel n samples jax e (th : R) (k : Z) x y vx vy wz acts,
    rot2d_dyn w m inertia acc vel n samples "Euler" jax = Ok (e_dyn e) ->
    e_state e = A1 [x; y; Fin (th + 2 * PI * IZR k); vx; vy; wz] -> acts <> [] ->
    run w (set_state e (A1 [x; y; Fin th; vx; vy; wz])) acts = run w e acts.
Proof.
  exact (fun rd w m i a v n s j e th k x y vx vy wz acts E =>
    rot2d_turn_run rd w m i a v n s j e _ th x y vx vy wz acts E (ex_intro _ k eq_refl)).
Qed.
Print Assumptions C24_rotation2d_runs.
