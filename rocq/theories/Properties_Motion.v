(** Properties C87-C89: speed of the point masses, slew of the planar spacecraft, steady
    turns of the Dubins aircraft. *)
From Coq Require Import String List Bool Arith ZArith Lia Reals Lra.
From Flocq Require Import Core.Core.
From Coquelicot Require Import Coquelicot.
From Verif Require Import PyBase Num Arr BaseModel SpecWrap XReal XTac SpecRk SpecCwh CwhLemmas LimLemmas
  Integ SpecInteg IntegLemmas Rot2d Rot2dLemmas Dubins DubinsLemmas SpecFlow MotionLemmas TurnLemmas.
Import List ListNotations.
Local Open Scope R_scope.

(** Exact arithmetic; the float32 cast is whatever the quantified [r32] or [rd] says. *)
Local Hint Extern 0 (Num xr) => match goal with r : R -> xr |- _ => exact (XR r) | rd : R -> R |- _ => exact (XR (fun x => Fin (rd x))) end : typeclass_instances.

(** * C87 Speed of the integrators *)

(** With damping and Euler steps of at most 1/c, no command sequence makes an axis faster
    than the larger of its initial speed and the terminal speed 1/(m c). *)
Theorem C87_terminal_speed :
  forall (r32 : R -> xr) (w : world xr) m c mode k samples, 0 < m -> 0 < c -> offered mode k -> (samples <= 0)%Z ->
    forall (l : list (R * list R)) e ps vs,
    (forall h us, In (h, us) l -> 0 <= c * h <= 1 /\ length us = k) ->
    plain_integ r32 m c mode k samples "Euler" e -> length ps = k -> length vs = k -> e_state e = point_state ps vs ->
    exists e' ps' vs', run w e (thrusts l) = Ok e' /\ e_state e' = point_state ps' vs' /\ length ps' = k /\
      Forall2 (fun a b => Rabs a <= Rmax (Rabs b) (1 / (m * c))) vs' vs.
Proof. exact terminal_run. Qed.
Print Assumptions C87_terminal_speed.

(** With or without damping, no command sequence gains more than elapsed time / m. *)
Theorem C87_speed_gain :
  forall (r32 : R -> xr) (w : world xr) m c mode k samples, 0 < m -> offered mode k -> (samples <= 0)%Z ->
    forall (l : list (R * list R)) e ps vs,
    (forall h us, In (h, us) l -> 0 <= h /\ 0 <= c * h <= 1 /\ length us = k) ->
    plain_integ r32 m c mode k samples "Euler" e -> length ps = k -> length vs = k -> e_state e = point_state ps vs ->
    exists e' ps' vs', run w e (thrusts l) = Ok e' /\ e_state e' = point_state ps' vs' /\ length ps' = k /\
      Forall2 (fun a b => Rabs a <= Rabs b + fold_right Rplus 0 (map fst l) / m) vs' vs.
Proof. exact slow_run. Qed.
Print Assumptions C87_speed_gain.

(** Under a constant admissible command the distance of the velocity to u/(m c) shrinks by
    the factor 1 - c h in every step. *)
Theorem C87_approaches_terminal :
  forall (r32 : R -> xr) (w : world xr) m c mode k samples h us, m <> 0 -> c <> 0 -> offered mode k -> (samples <= 0)%Z ->
    length us = k -> Forall (fun u => -1 <= u <= 1) us ->
    forall j e ps vs, plain_integ r32 m c mode k samples "Euler" e -> length ps = k -> length vs = k ->
    e_state e = point_state ps vs ->
    exists e' ps' vs', run w e (thrusts (repeat (h, us) j)) = Ok e' /\ e_state e' = point_state ps' vs' /\ length ps' = k /\
      length vs' = k /\
      zipw (fun v u => v - u / (m * c)) vs' us = map (Rmult ((1 - c * h)^j)) (zipw (fun v u => v - u / (m * c)) vs us).
Proof. exact contract_run. Qed.
Print Assumptions C87_approaches_terminal.

(** Mass 1, damping 1/2, full thrust from rest: after two seconds three quarters of the
    terminal speed 2. *)
Example C87_example : exists e,
  integrator1d_body (N := XR Fin) (Fin 1) (Fin (1/2)) 0 "Euler" (Fin 0) (Fin 0) = Ok e /\
  exists e' p, run (N := XR Fin) (euler_world (N := XR Fin)) e (thrusts [(1, [1]); (1, [1])]) = Ok e' /\
    e_state e' = point_state [p] [3/2].
Proof.
  destruct (integrator1d_body (N := XR Fin) (Fin 1) (Fin (1/2)) 0 "Euler" (Fin 0) (Fin 0)) as [e|] eqn:E.
  - exists e. split; [reflexivity|].
    destruct (bodies_plain Fin 1 (1/2) 0 "Euler" ltac:(lra)) as (P & _ & _). specialize (P _ _ _ E).
    assert (Es : e_state e = point_state [0] [0]).
    { unfold integrator1d_body in E. destruct (integ_dyn _ _ _ _ _); [|discriminate]. cbn [bind] in E. injection E as <-. reflexivity. }
    assert (Of : offered "1d" 1) by (left; auto).
    destruct (contract_run Fin (euler_world (N := XR Fin)) 1 (1/2) "1d" 1 0 1 [1] ltac:(lra) ltac:(lra) Of ltac:(lia) eq_refl
      ltac:(repeat constructor; lra) 2 e [0] [0] P eq_refl eq_refl Es) as (e' & ps' & vs' & R1 & R2 & R3 & R4 & R5).
    destruct ps' as [|p []]; try discriminate. destruct vs' as [|v []]; try discriminate.
    exists e', p. split; [exact R1|]. rewrite R2. cbn in R5. injection R5 as R5. do 3 f_equal. lra.
  - exfalso. revert E. unfold integrator1d_body, integ_dyn, generate_dynamics_matrices, pydiv. cbn.
    rewrite (Req_bool_false 1 (0 / 1)) by lra. discriminate.
Qed.

(** * C88 Slew of the planar spacecraft *)

(** Whatever the commands, over any run of Euler steps the angular velocity changes by at
    most (acceleration limit) * elapsed time, and the attitude by at most (velocity limit) *
    elapsed time, up to whole turns. Both limits are the tighter of the spacecraft limit and
    what the reaction wheel can give. *)
Theorem C88_slew :
  forall (rd : R -> R) (w : world xr) m inertia al vl iw aw vw n samples jax x0 y0 th0 vx0 vy0 wz0 e0,
    m <> 0 -> 0 < inertia -> (samples <= 0)%Z ->
    rot2d_spacecraft w (Fin m) (Fin inertia) (Fin al) (Fin vl) (Fin iw) (Fin aw) (Fin vw) (Fin n) samples "Euler" jax
      x0 y0 th0 vx0 vy0 wz0 = Ok e0 ->
    let acc := Rmin al (iw * aw / inertia) in
    let vel := Rmin vl (iw * vw / inertia) in
    0 <= acc -> 0 <= vel ->
    forall (l : list (R * list R)) e x y th vx vy wz,
      Forall (fun p => 0 <= fst p /\ length (snd p) = 3%nat) l ->
      e_dyn e = e_dyn e0 -> e_cmin e = e_cmin e0 -> e_cmax e = e_cmax e0 ->
      e_state e = A1 (map Fin [x; y; th; vx; vy; wz]) -> - vel <= wz <= vel ->
      exists e' x' y' th' vx' vy' wz' turn, run w e (thrusts l) = Ok e' /\
        e_state e' = A1 (map Fin [x'; y'; th'; vx'; vy'; wz']) /\
        - vel <= wz' <= vel /\ Rabs (wz' - wz) <= acc * fold_right Rplus 0 (map fst l) /\
        same_angle th' (th + turn) /\ Rabs turn <= vel * fold_right Rplus 0 (map fst l).
Proof. exact rot2d_slew. Qed.
Print Assumptions C88_slew.

(** The bound is attained: two seconds at full moment. *)
Example C88_example : exists e e' l,
  rot2d_spacecraft (N := XR Fin) (euler_world (N := XR Fin)) (Fin 2) (Fin 1) (Fin 1) (Fin 3) (Fin (1 / 50))
    (Fin 100) (Fin 100) (Fin 1) 0 "Euler" false (Fin 0) (Fin 0) (Fin 0) (Fin 0) (Fin 0) (Fin 0) = Ok e /\
  run (N := XR Fin) (euler_world (N := XR Fin)) e (thrusts [(2, [0; 0; 7])]) = Ok e' /\
  e_state e' = A1 (map Fin l) /\ nth 5 l 0 = Rmin 1 (1 / 50 * 100 / 1) * 2.
Proof. exact rot2d_slew_example. Qed.

(** * C89 Steady turns of the Dubins aircraft *)

(** Under a constant heading rate and no acceleration the unique solution of the
    implemented 2d equations is the uniform circular motion [turn2d]... *)
Theorem C89_turn2d :
  forall (rd : R -> R) v_min v_max samples method x y psi v om, om <> 0 ->
    let d := dubins2d_dyn (Fin v_min) (Fin v_max) samples method in
    solves d (A1 (map Fin [om; 0])) (turn2d x y psi v om) /\
    forall sol, sol 0 = [x; y; psi; v] -> solves d (A1 (map Fin [om; 0])) sol -> forall t, sol t = turn2d x y psi v om t.
Proof.
  exact (fun rd a b s m x y psi v om Ho => conj (turn2d_solves rd a b s m x y psi v om Ho)
    (fun sol I S => turn2d_unique rd a b s m om sol x y psi v Ho I S)).
Qed.
Print Assumptions C89_turn2d.

(** ... whose positions lie on a circle of radius |v/om|, closed after 2 pi / om. *)
Theorem C89_circle2d :
  forall x y psi v om, om <> 0 ->
    (forall t, (nth 0 (turn2d x y psi v om t) 0 - (x - v / om * sin psi))^2 +
               (nth 1 (turn2d x y psi v om t) 0 - (y + v / om * cos psi))^2 = (v / om)^2) /\
    turn2d x y psi v om 0 = [x; y; psi; v] /\
    turn2d x y psi v om (2 * PI / om) = [x; y; psi + 2 * PI; v].
Proof.
  exact (fun x y psi v om Ho => conj (fun t => circle2d x y psi v om t Ho)
    (conj (turn2d_0 x y psi v om Ho) (full_circle2d x y psi v om Ho))).
Qed.
Print Assumptions C89_circle2d.

(** Without heading rate: uniform straight motion, and nothing else. *)
Theorem C89_straight2d :
  forall (rd : R -> R) v_min v_max samples method x y psi v,
    let d := dubins2d_dyn (Fin v_min) (Fin v_max) samples method in
    let line := fun t => [x + v * cos psi * t; y + v * sin psi * t; psi; v] in
    solves d (A1 (map Fin [0; 0])) line /\
    forall sol, sol 0 = [x; y; psi; v] -> solves d (A1 (map Fin [0; 0])) sol -> forall t, sol t = line t.
Proof.
  exact (fun rd a b s m x y psi v => conj (straight2d_solves rd a b s m x y psi v)
    (fun sol I S => straight2d_unique rd a b s m sol x y psi v I S)).
Qed.
Print Assumptions C89_straight2d.

(** Stepping the entity: with a solver that makes no error, after steps of any lengths at a
    constant admissible heading rate the aircraft is on that circle, at the place for the
    total time, with the heading equal up to whole turns (it is wrapped) and the speed
    unchanged. *)
Theorem C89_steps2d :
  forall (rd : R -> R) (w : world xr) v_min v_max samples v om hlo hhi alo ahi, rd 0 = 0 -> om <> 0 ->
    hlo <= om <= hhi -> alo <= 0 <= ahi -> rd v_min <= v <= rd v_max ->
    exact_on w (fun t x => compute_state_dot (dubins2d_dyn (Fin v_min) (Fin v_max) samples "RK45") t x (A1 (map Fin [om; 0]))) ->
    forall hs (e : entity xr) x y psi,
    e_dyn e = dubins2d_dyn (Fin v_min) (Fin v_max) samples "RK45" ->
    e_cmin e = A1 (map Fin [hlo; alo]) -> e_cmax e = A1 (map Fin [hhi; ahi]) ->
    e_state e = A1 (map Fin [x; y; psi; v]) ->
    exists e' psi', run w e (map (fun h => (Fin h, AArr (A1 (map Fin [om; 0])))) hs) = Ok e' /\
      let T := fold_right Rplus 0 hs in
      e_state e' = A1 (map Fin [nth 0 (turn2d x y psi v om T) 0; nth 1 (turn2d x y psi v om T) 0; psi'; v]) /\
      same_angle psi' (psi + om * T).
Proof. exact dubins2d_exact_run. Qed.
Print Assumptions C89_steps2d.

(** Such a solver exists. *)
Theorem C89_exact_solver_exists :
  forall (rd : R -> R) v_min v_max samples method om, om <> 0 ->
    exists w, exact_on w (fun t x => compute_state_dot (dubins2d_dyn (Fin v_min) (Fin v_max) samples method) t x (A1 (map Fin [om; 0]))).
Proof. exact (fun rd a b s m om Ho => ex_intro _ turn_world (turn_world_exact rd a b s m om Ho)). Qed.
Print Assumptions C89_exact_solver_exists.

(** 3d aircraft: with the controls neutral, speed, flight path and roll angle are constant,
    the heading turns at g tan(roll) / v, and the track is a helix over a circle. *)
Theorem C89_turn3d :
  forall (rd : R -> R) g v_min v_max g_min g_max r_min r_max samples method x y z psi ga ro v,
    v <> 0 -> cos ro <> 0 -> g / v * tan ro <> 0 ->
    let d := dubins3d_dyn (Fin g) (Fin v_min) (Fin v_max) (Fin g_min) (Fin g_max) (Fin r_min) (Fin r_max) samples method in
    let om := g / v * tan ro in
    solves d (A1 (map Fin [0; 0; 0])) (turn3d x y z psi ga ro v om) /\
    (forall sol, sol 0 = [x; y; z; psi; ga; ro; v] ->
       (forall t, nth 6 (sol t) 0 <> 0 /\ cos (nth 5 (sol t) 0) <> 0) ->
       solves d (A1 (map Fin [0; 0; 0])) sol -> forall t, sol t = turn3d x y z psi ga ro v om t) /\
    (forall t, (nth 0 (turn3d x y z psi ga ro v om t) 0 - (x - v * cos ga / om * sin psi))^2 +
               (nth 1 (turn3d x y z psi ga ro v om t) 0 - (y + v * cos ga / om * cos psi))^2 = (v * cos ga / om)^2) /\
    turn3d x y z psi ga ro v om (2 * PI / om) = [x; y; z - v * sin ga * (2 * PI / om); psi + 2 * PI; ga; ro; v].
Proof.
  exact (fun rd g a b c d e f s m x y z psi ga ro v Hv Hr Ho =>
    conj (turn3d_solves rd g a b c d e f s m x y z psi ga ro v Hv Hr Ho)
    (conj (fun sol I N S => turn3d_unique rd g a b c d e f s m sol x y z psi ga ro v Hv Hr Ho I N S)
    (conj (fun t => circle3d x y z psi ga ro v _ t Ho) (full_circle3d x y z psi ga ro v _ Ho)))).
Qed.
Print Assumptions C89_turn3d.

(** Speed 100, heading rate 1/10, heading north from the origin: two steps of 5 pi seconds
    each are a half circle of radius 1000. *)
Example C89_example : turn2d 0 0 0 100 (1/10) (5 * PI + (5 * PI + 0)) = [0; 2000; PI; 100] /\
  exists e e' psi', e = dubins2d_aircraft (N := XR Fin) 0 "RK45" (Fin 10) (Fin 200) (Fin (-1)) (Fin 1) (Fin (-2)) (Fin 2)
    (Fin 0) (Fin 0) (Fin 0) (Fin 100) /\
  run (N := XR Fin) turn_world e (map (fun h => (Fin h, AArr (A1 (map Fin [1/10; 0])))) [5 * PI; 5 * PI]) = Ok e' /\
  e_state e' = A1 (map Fin [0; 2000; psi'; 100]) /\ same_angle psi' PI.
Proof.
  assert (T : turn2d 0 0 0 100 (1/10) (5 * PI + (5 * PI + 0)) = [0; 2000; PI; 100]).
  { unfold turn2d. replace (0 + 1 / 10 * (5 * PI + (5 * PI + 0))) with PI by field.
    rewrite sin_PI, cos_PI, sin_0, cos_0. fin_list; field. }
  split; [exact T|].
  destruct (dubins2d_exact_run (fun x => x) turn_world 10 200 0 100 (1/10) (-1) 1 (-2) 2 eq_refl ltac:(lra) ltac:(lra) ltac:(lra) ltac:(lra)
    (turn_world_exact (fun x => x) 10 200 0 "RK45" (1/10) ltac:(lra)) [5 * PI; 5 * PI]
    (dubins2d_aircraft (N := XR Fin) 0 "RK45" (Fin 10) (Fin 200) (Fin (-1)) (Fin 1) (Fin (-2)) (Fin 2) (Fin 0) (Fin 0) (Fin 0) (Fin 100))
    0 0 0 eq_refl eq_refl eq_refl eq_refl) as (e' & psi' & R1 & R2 & R3).
  eexists _, e', psi'. split; [reflexivity|]. split; [exact R1|].
  cbn [fold_right] in R2, R3. rewrite T in R2. cbn [nth] in R2. split; [exact R2|].
  replace (0 + 1 / 10 * (5 * PI + (5 * PI + 0))) with PI in R3 by field. exact R3.
Qed.
