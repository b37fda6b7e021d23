(** Properties C24 (Dubins half), C38-C42 and C72: the Dubins aircraft. *)
From Coq Require Import String List Bool Arith ZArith Lia Reals Lra.
From Coquelicot Require Import Coquelicot.
From Flocq Require Import Core.Core IEEE754.BinarySingleNaN.
From Verif Require Import PyBase Num Arr BaseModel Spec SpecBase SpecWrap XReal Float64 NumOrdLemmas Cwh Utils SixDof Dubins SpecRk
  SpecCwh SpecSixDof SpecDubins XTac DubinsLemmas DubinsProps.
Import List ListNotations.
Local Open Scope R_scope.

(** Exact arithmetic; the float32 casts round by the quantified function [rd]. *)
Local Hint Extern 0 (Num xr) => match goal with
  | r : R -> R |- _ => exact (XR (fun x => Fin (r x))) | _ => exact (XR Fin) end : typeclass_instances.

(** * C24 Heading periodicity (Dubins aircraft) *)

Theorem C24_dubins2d_derivative :
  forall (rd : R -> R) (v_min v_max : xr) samples method (hd : R) (k : Z) t x y v u,
    let d := dubins2d_dyn v_min v_max samples method in
    compute_state_dot d t (A1 [x; y; Fin (hd + 2 * PI * IZR k); v]) u = compute_state_dot d t (A1 [x; y; Fin hd; v]) u.
Proof. exact (fun rd a b s m hd k => dubins2d_turn rd a b s m _ hd (ex_intro _ k eq_refl)). Qed.
Print Assumptions C24_dubins2d_derivative.

Theorem C24_dubins3d_derivative :
  forall (rd : R -> R) (g v_min v_max g_min g_max r_min r_max : xr) samples method (hd : R) (k : Z) t x y z ga ro v u,
    let d := dubins3d_dyn g v_min v_max g_min g_max r_min r_max samples method in
    compute_state_dot d t (A1 [x; y; z; Fin (hd + 2 * PI * IZR k); ga; ro; v]) u =
    compute_state_dot d t (A1 [x; y; z; Fin hd; ga; ro; v]) u.
Proof. exact (fun rd g a b c d e f s m hd k => dubins3d_turn rd g a b c d e f s m _ hd (ex_intro _ k eq_refl)). Qed.
Print Assumptions C24_dubins3d_derivative.

(** Whole turns in the heading change nothing in what follows, for any actions. *)
Theorem C24_dubins2d_runs :
  forall (rd : R -> R) (w : world xr) v_min v_max samples e (hd : R) (k : Z) x y v acts, rd 0 = 0 ->
    e_dyn e = dubins2d_dyn v_min v_max samples "Euler" ->
    e_state e = A1 [x; y; Fin (hd + 2 * PI * IZR k); v] -> acts <> [] ->
    run w (set_state e (A1 [x; y; Fin hd; v])) acts = run w e acts.
Proof.
  exact (fun rd w a b s e hd k x y v acts Z E => dubins2d_turn_run rd w a b s e _ hd x y v acts Z E (ex_intro _ k eq_refl)).
Qed.
Print Assumptions C24_dubins2d_runs.

Theorem C24_dubins3d_runs :
  forall (rd : R -> R) (w : world xr) g v_min v_max g_min g_max r_min r_max samples e (hd : R) (k : Z) x y z ga ro v acts, rd 0 = 0 ->
    e_dyn e = dubins3d_dyn g v_min v_max g_min g_max r_min r_max samples "Euler" ->
    e_state e = A1 [x; y; z; Fin (hd + 2 * PI * IZR k); ga; ro; v] -> acts <> [] ->
    run w (set_state e (A1 [x; y; z; Fin hd; ga; ro; v])) acts = run w e acts.
Proof.
  exact (fun rd w g a b c d f h s e hd k x y z ga ro v acts Z E =>
    dubins3d_turn_run rd w g a b c d f h s e _ hd x y z ga ro v acts Z E (ex_intro _ k eq_refl)).
Qed.
Print Assumptions C24_dubins3d_runs.

(** Non-vacuity: an aircraft two turns ahead can be stepped. *)
Example C24_dubins_example :
  let e := dubins2d_aircraft 0 "Euler" (Fin 200) (Fin 400) (Fin (-1)) (Fin 1) (Fin (-96)) (Fin 96)
             (Fin 0) (Fin 0) (Fin (1 + 2 * PI * 2)) (Fin 300) in
  e_state e = A1 [Fin 0; Fin 0; Fin (1 + 2 * PI * 2); Fin 300] /\
  o_res (entity_step (euler_world (N := XR Fin)) e (Fin 1) (AArr (A1 [Fin 1; Fin 0]))) = Ok tt.
Proof. split; [reflexivity|]. unfold entity_step. xstep. reflexivity. Qed.

(** * C38 Kinematics *)

(** The derivative of the position is the velocity the aircraft reports (up to the float32
    rounding [rd] of the report), of magnitude |v|, along the nose direction. *)
Theorem C38_dubins2d :
  forall (rd : R -> R) v_min v_max samples method t x y hd v hr acc e,
    e_state e = A1 (map Fin [x; y; hd; v]) ->
    exists sd vel q,
      compute_state_dot (dubins2d_dyn (Fin v_min) (Fin v_max) samples method) t (e_state e) (A1 (map Fin [hr; acc])) = Ok (A1 (map Fin sd)) /\
      [nth 0 sd 0; nth 1 sd 0; 0] = vec_list vel /\
      d2_velocity e = Ok (A1 (map (fun r => Fin (rd r)) (vec_list vel))) /\
      norm3 vel = Rabs v /\
      d2_orientation e = Ok (fin4 q) /\ qnorm2 q = 1 /\ vel = scale3 v (rotate q (1, 0, 0)).
Proof. exact dubins2d_kinematics. Qed.
Print Assumptions C38_dubins2d.

(** [v <> 0] and [cos roll <> 0]: elsewhere the heading rate is undefined (see C39). *)
Theorem C38_dubins3d :
  forall (rd : R -> R) g v_min v_max g_min g_max r_min r_max samples method t x y z hd ga ro v u0 u1 u2 e,
    v <> 0 -> cos ro <> 0 ->
    e_state e = A1 (map Fin [x; y; z; hd; ga; ro; v]) ->
    exists sd vel q,
      compute_state_dot (dubins3d_dyn (Fin g) (Fin v_min) (Fin v_max) (Fin g_min) (Fin g_max) (Fin r_min) (Fin r_max) samples method) t
        (e_state e) (A1 (map Fin [u0; u1; u2])) = Ok (A1 (map Fin sd)) /\
      [nth 0 sd 0; nth 1 sd 0; nth 2 sd 0] = vec_list vel /\
      d3_velocity e = Ok (A1 (map (fun r => Fin (rd r)) (vec_list vel))) /\
      norm3 vel = Rabs v /\
      d3_orientation e = Ok (fin4 q) /\ qnorm2 q = 1 /\ vel = scale3 v (rotate q (1, 0, 0)).
Proof. exact dubins3d_kinematics. Qed.
Print Assumptions C38_dubins3d.

(** Heading east-to-north by pi/2, climbing angle 0: all speed along y. *)
Example C38_example :
  let e := dubins2d_aircraft 0 "Euler" (Fin 200) (Fin 400) (Fin (-1)) (Fin 1) (Fin (-96)) (Fin 96)
             (Fin 0) (Fin 0) (Fin (PI / 2)) (Fin 300) in
  d2_velocity e = Ok (A1 (map Fin [0; 300; 0])).
Proof.
  unfold d2_velocity, dubins_velocity, d2_v, d2_heading. cbn. rewrite cos_PI2, sin_PI2.
  replace (0 / 1) with 0 by field. rewrite cos_0, sin_0. fin_list; field.
Qed.

(** * C39 Coordinated turn *)

(** The full derivative of both models. *)
Theorem C39_dubins2d_derivative :
  forall (rd : R -> R) v_min v_max samples method t x y hd v hr acc,
    compute_state_dot (dubins2d_dyn (Fin v_min) (Fin v_max) samples method) t
      (A1 (map Fin [x; y; hd; v])) (A1 (map Fin [hr; acc])) =
    Ok (A1 (map Fin [v * cos hd; v * sin hd; hr; stopR (rd v_min) (rd v_max) v acc])).
Proof. exact dubins2d_csd. Qed.
Print Assumptions C39_dubins2d_derivative.

Theorem C39_dubins3d_derivative :
  forall (rd : R -> R) g v_min v_max g_min g_max r_min r_max samples method t x y z hd ga ro v u0 u1 u2,
    v <> 0 -> cos ro <> 0 ->
    compute_state_dot (dubins3d_dyn (Fin g) (Fin v_min) (Fin v_max) (Fin g_min) (Fin g_max) (Fin r_min) (Fin r_max) samples method) t
      (A1 (map Fin [x; y; z; hd; ga; ro; v])) (A1 (map Fin [u0; u1; u2])) =
    Ok (A1 (map Fin [v * cos hd * cos ga; v * sin hd * cos ga; - v * sin ga; g / v * tan ro;
                     stopR (rd g_min) (rd g_max) ga u0; stopR (rd r_min) (rd r_max) ro u1;
                     stopR (rd v_min) (rd v_max) v u2])).
Proof. exact dubins3d_csd. Qed.
Print Assumptions C39_dubins3d_derivative.

(** Inside the limits every derivative is finite, given positive minimal speed and roll
    limits short of a right angle. *)
Theorem C39_finite_in_limits :
  forall (rd : R -> R) g v_min v_max g_min g_max r_min r_max samples method t x y z hd ga ro v u0 u1 u2,
    0 < rd v_min -> - PI / 2 < rd r_min -> rd r_max < PI / 2 ->
    rd v_min <= v -> rd r_min <= ro <= rd r_max ->
    exists sd,
      compute_state_dot (dubins3d_dyn (Fin g) (Fin v_min) (Fin v_max) (Fin g_min) (Fin g_max) (Fin r_min) (Fin r_max) samples method) t
        (A1 (map Fin [x; y; z; hd; ga; ro; v])) (A1 (map Fin [u0; u1; u2])) = Ok (A1 (map Fin sd)) /\
      length sd = 7%nat /\ nth 3 sd 0 = g / v * tan ro.
Proof. exact dubins3d_regular. Qed.
Print Assumptions C39_finite_in_limits.

Example C39_example :
  0 < 200 /\ - PI / 2 < -1 /\ 1 < PI / 2 /\ 200 <= 300 /\ -1 <= PI / 4 <= 1 /\ 32 / 300 * tan (PI / 4) = 8 / 75.
Proof. rewrite tan_PI4. pose proof PI2_3_2. pose proof PI_4. repeat split; lra. Qed.

(** * C40 Reported acceleration *)

(** Exact casts: v' times the unit vector along the velocity. *)
Theorem C40_parallel_2d :
  forall e x y hd v a b c d, e_state e = A1 (map Fin [x; y; hd; v]) ->
    e_sdot e = A1 (map Fin [a; b; c; d]) -> v <> 0 ->
    d2_acceleration e = Ok (A1 (map Fin (vec_list (scale3 d (nose hd 0))))).
Proof. exact d2_acceleration_nose. Qed.
Print Assumptions C40_parallel_2d.

Theorem C40_parallel_3d :
  forall e x y z hd ga ro v d0 d1 d2 d3 d4 d5 d6, e_state e = A1 (map Fin [x; y; z; hd; ga; ro; v]) ->
    e_sdot e = A1 (map Fin [d0; d1; d2; d3; d4; d5; d6]) -> v <> 0 ->
    d3_acceleration e = Ok (A1 (map Fin (vec_list (scale3 d6 (nose hd ga))))).
Proof. exact d3_acceleration_nose. Qed.
Print Assumptions C40_parallel_3d.

(** How it relates to the time derivative of the velocity along any differentiable motion:
    the turning terms are missing. In straight flight the two agree.
    Missing: the normal part of the acceleration, which is not reported. *)
Theorem C40_derivative_2d_partial :
  forall e (sol : R -> list R) ds t x y hd v,
    (forall s, sol s = [x s; y s; hd s; v s]) -> length ds = 4%nat ->
    (forall i, (i < 4)%nat -> is_derive (fun s => nth i (sol s) 0) t (nth i ds 0)) ->
    e_state e = A1 (map Fin (sol t)) -> e_sdot e = A1 (map Fin ds) -> v t <> 0 ->
    exists acc vel,
      d2_acceleration (N := XR Fin) e = Ok (A1 (map Fin acc)) /\
      (forall s, d2_velocity (N := XR Fin) (set_state e (A1 (map Fin (sol s)))) = Ok (A1 (map Fin (vel s)))) /\
      forall i, (i < 3)%nat ->
        is_derive (fun s => nth i (vel s) 0) t
          (nth i acc 0 + v t * nth 2 ds 0 * nth i [- sin (hd t); cos (hd t); 0] 0).
Proof. exact d2_acc_derivative. Qed.
Print Assumptions C40_derivative_2d_partial.

(** The same in three dimensions. Missing: the normal part of the acceleration, which is not reported. *)
Theorem C40_derivative_3d_partial :
  forall e (sol : R -> list R) ds t x y z hd ga ro v,
    (forall s, sol s = [x s; y s; z s; hd s; ga s; ro s; v s]) -> length ds = 7%nat ->
    (forall i, (i < 7)%nat -> is_derive (fun s => nth i (sol s) 0) t (nth i ds 0)) ->
    e_state e = A1 (map Fin (sol t)) -> e_sdot e = A1 (map Fin ds) -> v t <> 0 ->
    exists acc vel,
      d3_acceleration (N := XR Fin) e = Ok (A1 (map Fin acc)) /\
      (forall s, d3_velocity (N := XR Fin) (set_state e (A1 (map Fin (sol s)))) = Ok (A1 (map Fin (vel s)))) /\
      forall i, (i < 3)%nat ->
        is_derive (fun s => nth i (vel s) 0) t
          (nth i acc 0 + v t * nth 3 ds 0 * nth i [- sin (hd t) * cos (ga t); cos (hd t) * cos (ga t); 0] 0
                       + v t * nth 4 ds 0 * nth i [- cos (hd t) * sin (ga t); - sin (hd t) * sin (ga t); - cos (ga t)] 0).
Proof. exact d3_acc_derivative. Qed.
Print Assumptions C40_derivative_3d_partial.

(** Full statement false: flying a circle at speed 1, the velocity changes at rate 1 while
    the reported acceleration is 0. *)
Theorem C40_is_derivative_refuted :
  exists (d : dyn xr) (u : arr xr) (sol : R -> list R) (e : entity xr) (vy : R -> R) ax ay az,
    d = dubins2d_dyn (N := XR Fin) (Fin 0) (Fin 2) 0 "Euler" /\ @solves d (XR Fin) u sol /\
    e_dyn e = d /\ e_state e = A1 (map Fin (sol 0)) /\ compute_state_dot (N := XR Fin) d (Fin 0) (e_state e) u = Ok (e_sdot e) /\
    (forall t, exists vx vz, d2_velocity (N := XR Fin) (set_state e (A1 (map Fin (sol t)))) = Ok (A1 (map Fin [vx; vy t; vz]))) /\
    d2_acceleration (N := XR Fin) e = Ok (A1 (map Fin [ax; ay; az])) /\ is_derive vy 0 1 /\ ay = 0.
Proof. exact d2_acc_refuted. Qed.
Print Assumptions C40_is_derivative_refuted.

(** * C41 Speed and displacement bounds *)

(** After any steps, any method and solver, exact and binary64 arithmetic: the speed is
    within the float32 casts of the configured limits, or NaN. *)
Theorem C41_speed_2d :
  forall T (N : Num T) (O : NumOrd T) (w : world T) v_min v_max samples method e acts e' v,
    nisnan (nf32 (nnan : T)) = true ->
    e_dyn e = dubins2d_dyn v_min v_max samples method -> nleb (nf32 v_min) (nf32 v_max) = true ->
    acts <> [] -> run w e acts = Ok e' -> d2_v e' = Ok v ->
    nisnan v = true \/ (nleb (nf32 v_min) v = true /\ nleb v (nf32 v_max) = true).
Proof. exact (fun T N O => @dubins2d_speed T N O). Qed.
Print Assumptions C41_speed_2d.

Theorem C41_speed_3d :
  forall T (N : Num T) (O : NumOrd T) (w : world T) g v_min v_max g_min g_max r_min r_max samples method e acts e' v,
    nisnan (nf32 (nnan : T)) = true ->
    e_dyn e = dubins3d_dyn g v_min v_max g_min g_max r_min r_max samples method -> nleb (nf32 v_min) (nf32 v_max) = true ->
    acts <> [] -> run w e acts = Ok e' -> d3_v e' = Ok v ->
    nisnan v = true \/ (nleb (nf32 v_min) v = true /\ nleb v (nf32 v_max) = true).
Proof. exact (fun T N O => @dubins3d_speed T N O). Qed.
Print Assumptions C41_speed_3d.

(** The first premise holds in both arithmetics, and the default limits are exact. *)
Example C41_speed_premises :
  (forall r32, nisnan (Num := XR r32) (nf32 (Num := XR r32) NaN) = true) /\
  (forall lm, nisnan (Num := F64 lm) (nf32 (Num := F64 lm) (nnan (Num := F64 lm))) = true) /\
  (forall lm, B2SF (nf32 (Num := F64 lm) (fl 400 1)) = B2SF (fl 400 1)) /\
  (forall lm, nleb (Num := F64 lm) (nf32 (Num := F64 lm) (fl 200 1)) (nf32 (Num := F64 lm) (fl 400 1)) = true).
Proof. repeat split; intros; vm_compute; reflexivity. Qed.

(** Euler steps of any sizes under any actions, from a state inside the speed limits or
    after any steps: whenever the final position is finite, so was the first, and their
    distance is at most the maximal speed times the total duration. *)
Theorem C41_displacement_2d :
  forall (rd : R -> R) (w : world xr) v_min v_max samples e acts e' x1 y1 z1,
    e_dyn e = dubins2d_dyn (Fin v_min) (Fin v_max) samples "Euler" ->
    - rd v_max <= rd v_min <= rd v_max ->
    ((exists v0, d2_v e = Ok (Fin v0) /\ rd v_min <= v0 <= rd v_max) \/
     (exists e0 before, e_dyn e0 = e_dyn e /\ before <> [] /\ run w e0 before = Ok e)) ->
    run w e (fin_acts acts) = Ok e' -> d2_position e' = Ok (A1 (map Fin [x1; y1; z1])) ->
    exists x y z, d2_position e = Ok (A1 (map Fin [x; y; z])) /\
      norm3 (sub3 (x1, y1, z1) (x, y, z)) <= rd v_max * duration acts.
Proof. exact dubins2d_displacement. Qed.
Print Assumptions C41_displacement_2d.

Theorem C41_displacement_3d :
  forall (rd : R -> R) (w : world xr) g v_min v_max g_min g_max r_min r_max samples e acts e' x1 y1 z1,
    e_dyn e = dubins3d_dyn g (Fin v_min) (Fin v_max) g_min g_max r_min r_max samples "Euler" ->
    - rd v_max <= rd v_min <= rd v_max ->
    ((exists v0, d3_v e = Ok (Fin v0) /\ rd v_min <= v0 <= rd v_max) \/
     (exists e0 before, e_dyn e0 = e_dyn e /\ before <> [] /\ run w e0 before = Ok e)) ->
    run w e (fin_acts acts) = Ok e' -> d3_position e' = Ok (A1 (map Fin [x1; y1; z1])) ->
    exists x y z, d3_position e = Ok (A1 (map Fin [x; y; z])) /\
      norm3 (sub3 (x1, y1, z1) (x, y, z)) <= rd v_max * duration acts.
Proof. exact dubins3d_displacement. Qed.
Print Assumptions C41_displacement_3d.

(** One second straight ahead at speed 300. *)
Example C41_example :
  let w := euler_world (N := XR Fin) in
  let e := dubins2d_aircraft 0 "Euler" (Fin 200) (Fin 400) (Fin (-1)) (Fin 1) (Fin (-96)) (Fin 96)
             (Fin 0) (Fin 0) (Fin 0) (Fin 300) in
  exists e', run w e (fin_acts [(1, AArr (A1 (map Fin [0; 0])))]) = Ok e' /\
    d2_position e' = Ok (A1 (map Fin [300; 0; 0])) /\ d2_v e = Ok (Fin 300).
Proof. exact dubins2d_example. Qed.

(** * C42 Limits at construction and assignment *)

(** Configured values inside the configured limits give a fresh entity inside its state
    limits (monotone rounding). Missing: nothing checks that they are inside, and angles
    are not wrapped before the first step. *)
Theorem C42_dubins2d_partial :
  forall (rd : R -> R) samples method v_min v_max hr0 hr1 a0 a1 x y hd v,
    (forall a b, a <= b -> rd a <= rd b) -> v_min <= v <= v_max ->
    let e := dubins2d_aircraft samples method (Fin v_min) (Fin v_max) hr0 hr1 a0 a1 (Fin x) (Fin y) (Fin hd) (Fin v) in
    in_limits (d_min (e_dyn e)) (d_max (e_dyn e)) (e_state e).
Proof. exact dubins2d_built. Qed.
Print Assumptions C42_dubins2d_partial.

(** The same in three dimensions. Missing: initial values outside the limits, which are accepted. *)
Theorem C42_dubins3d_partial :
  forall (rd : R -> R) samples method v_min v_max g_min g_max r_min r_max c0 c1 c2 c3 c4 c5 x y z hd ga ro v,
    (forall a b, a <= b -> rd a <= rd b) -> v_min <= v <= v_max -> g_min <= ga <= g_max -> r_min <= ro <= r_max ->
    let e := dubins3d_aircraft samples method (Fin v_min) (Fin v_max) (Fin g_min) (Fin g_max) (Fin r_min) (Fin r_max)
               c0 c1 c2 c3 c4 c5 (Fin x) (Fin y) (Fin z) (Fin hd) (Fin ga) (Fin ro) (Fin v) in
    in_limits (d_min (e_dyn e)) (d_max (e_dyn e)) (e_state e).
Proof. exact dubins3d_built. Qed.
Print Assumptions C42_dubins3d_partial.

Example C42_example : (forall a b : R, a <= b -> a <= b) /\ 200 <= 300 <= 400.
Proof. split; [auto|lra]. Qed.

(** A Dubins aircraft limited to 400 is built with speed 1000 and heading 10. *)
Theorem C42_constructor_refuted :
  exists (e : entity xr) (v hd : R),
    e = dubins2d_aircraft 0 "Euler" (Fin 200) (Fin 400) (Fin (-1)) (Fin 1) (Fin (-96)) (Fin 96)
          (Fin 0) (Fin 0) (Fin 10) (Fin 1000) /\
    d2_v e = Ok (Fin v) /\ d2_heading e = Ok (Fin hd) /\
    bnth (d_max (e_dyn e)) 3 = Some (Fin 400) /\ 400 < v /\ PI < hd /\
    ~ in_limits (d_min (e_dyn e)) (d_max (e_dyn e)) (e_state e).
Proof. exact dubins2d_unchecked. Qed.
Print Assumptions C42_constructor_refuted.

(** Assigning [e.v = 1000] takes an aircraft out of its limits. *)
Theorem C42_setter_refuted :
  exists (e e' : entity xr),
    in_limits (d_min (e_dyn e)) (d_max (e_dyn e)) (e_state e) /\
    set_elem e 3 false (Fin 1000) = Ok e' /\ e_dyn e' = e_dyn e /\
    ~ in_limits (d_min (e_dyn e')) (d_max (e_dyn e')) (e_state e').
Proof. exact dubins2d_setter_unchecked. Qed.
Print Assumptions C42_setter_refuted.

(** * C72 State limits as configured *)

(** Speed limits that float32 represents exactly hold as configured.
    Missing: other limits, where it is false. *)
Theorem C72_representable_partial :
  forall T (N : Num T) (O : NumOrd T) (w : world T) v_min v_max samples method e acts e' v,
    nisnan (nf32 (nnan : T)) = true -> nf32 v_min = v_min -> nf32 v_max = v_max ->
    e_dyn e = dubins2d_dyn v_min v_max samples method -> nleb v_min v_max = true ->
    acts <> [] -> run w e acts = Ok e' -> d2_v e' = Ok v ->
    nisnan v = true \/ (nleb v_min v = true /\ nleb v v_max = true).
Proof. exact (fun T N O => @dubins2d_speed_configured T N O). Qed.
Print Assumptions C72_representable_partial.

(** False in general: with the default limits of the 3d aircraft the roll angle exceeds
    the configured roll_max = 1.047198 (whatever the libm), because the limit was rounded
    up to float32. *)
Theorem C72_refuted :
  forall lm : libm, exists (h : f64) (a : action f64),
    let e := dubins3d_aircraft (N := F64 lm) 0 "Euler" (fl 200 1) (fl 400 1) (fl (-349066) 1000000) (fl 349066 1000000)
      (fl (-1047198) 1000000) (fl 1047198 1000000) (fl (-174533) 1000000) (fl 174533 1000000)
      (fl (-87266) 1000000) (fl 87266 1000000) (fl (-965) 10) (fl 965 10)
      (fl 0 1) (fl 0 1) (fl 0 1) (fl 0 1) (fl 0 1) (fl 0 1) (fl 200 1) in
    let o := entity_step (N := F64 lm) (euler_world (N := F64 lm)) e h a in
    o_res o = Ok tt /\ match d3_roll (o_entity o) with Ok r => Bltb (fl 1047198 1000000) r = true | Err _ => False end.
Proof. exact (fun lm => ex_intro _ _ (ex_intro _ _ (dub3F_roll lm))). Qed.
Print Assumptions C72_refuted.
