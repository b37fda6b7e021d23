(** Property C107: Euler integration of aircraft and rotating spacecraft converges. *)
From Coq Require Import String List ZArith Reals.
From Coquelicot Require Import Coquelicot.
From Verif Require Import PyBase Num Arr BaseModel XReal Dubins Rot2d XTac SpecWrap SpecRk SpecCwh SpecFlow ConvLemmas ConvRot ConvEx.
Import List ListNotations.
Local Open Scope R_scope.
Local Hint Extern 0 (Num xr) => exact (XR Fin) : typeclass_instances.

(** Planar aircraft, after any history, constant commands within their limits held for the time [T],
    speed within its limits all the time: [k] Euler steps give the exact speed and heading, and miss
    the position of the exact motion (px, py) by at most an explicit constant over [k]. [V] is any
    bound on the speed. *)
Theorem C107_dubins2d :
  forall (w : world xr) samples v_min v_max hr_min hr_max acc_min acc_max x0 y0 hd0 v0 acts e x y psi v hr acc T V (px py : R -> R),
    (samples <= 0)%Z ->
    run w (dubins2d_aircraft samples "Euler" (Fin v_min) (Fin v_max) (Fin hr_min) (Fin hr_max) (Fin acc_min) (Fin acc_max) x0 y0 hd0 v0) acts = Ok e ->
    e_state e = A1 (map Fin [x; y; psi; v]) ->
    hr_min <= hr <= hr_max -> acc_min <= acc <= acc_max -> 0 <= T ->
    (forall t, 0 <= t <= T -> v_min <= v + acc * t <= v_max) ->
    (forall t, 0 <= t <= T -> Rabs (v + acc * t) <= V) ->
    px 0 = x -> py 0 = y ->
    (forall t, 0 <= t <= T -> is_derive px t ((v + acc * t) * cos (psi + hr * t))) ->
    (forall t, 0 <= t <= T -> is_derive py t ((v + acc * t) * sin (psi + hr * t))) ->
    forall k, (0 < k)%nat -> exists e' x' y' hd',
      run w e (repeat (Fin (T / INR k), AArr (A1 (map Fin [hr; acc]))) k) = Ok e' /\
      e_state e' = A1 (map Fin [x'; y'; hd'; v + acc * T]) /\
      same_angle hd' (psi + hr * T) /\
      Rabs (x' - px T) <= (Rabs acc + V * Rabs hr) * T * (T / INR k) /\
      Rabs (y' - py T) <= (Rabs acc + V * Rabs hr) * T * (T / INR k).
Proof. exact dub2_converges. Qed.
Print Assumptions C107_dubins2d.

(** A turn at 0.1 rad/s and 100 ft/s for 10 s ends at (1000 sin 1, 1000 (1 - cos 1)). *)
Example C107_dubins2d_example : forall (w : world xr) k, (0 < k)%nat -> exists e' x' y' hd',
  run w (dubins2d_aircraft 0 "Euler" (Fin 10) (Fin 200) (Fin (-1)) (Fin 1) (Fin (-3)) (Fin 3) (Fin 0) (Fin 0) (Fin 0) (Fin 100))
    (repeat (Fin (10 / INR k), AArr (A1 (map Fin [1 / 10; 0]))) k) = Ok e' /\
  e_state e' = A1 (map Fin [x'; y'; hd'; 100]) /\ same_angle hd' 1 /\
  Rabs (x' - 1000 * sin 1) <= 1000 / INR k /\ Rabs (y' - 1000 * (1 - cos 1)) <= 1000 / INR k.
Proof. exact conv_ex2. Qed.

(** Aircraft in space, the same; speed at least [vm] > 0, cosine of the roll angle at least [c] > 0,
    angle limits within one turn. Now the heading is integrated too. *)
Theorem C107_dubins3d :
  forall (w : world xr) samples v_min v_max g_min g_max r_min r_max gr_min gr_max rr_min rr_max acc_min acc_max
      x0 y0 z0 hd0 ga0 ro0 v0 acts e x y z psi ga ro v gr rr acc T V vm c (px py pz ps : R -> R),
    (samples <= 0)%Z ->
    run w (dubins3d_aircraft samples "Euler" (Fin v_min) (Fin v_max) (Fin g_min) (Fin g_max) (Fin r_min) (Fin r_max)
      (Fin gr_min) (Fin gr_max) (Fin rr_min) (Fin rr_max) (Fin acc_min) (Fin acc_max) x0 y0 z0 hd0 ga0 ro0 v0) acts = Ok e ->
    e_state e = A1 (map Fin [x; y; z; psi; ga; ro; v]) ->
    gr_min <= gr <= gr_max -> rr_min <= rr <= rr_max -> acc_min <= acc <= acc_max ->
    - PI <= g_min /\ g_max < PI -> - PI <= r_min /\ r_max < PI -> 0 <= T ->
    (forall t, 0 <= t <= T -> v_min <= v + acc * t <= v_max /\ vm <= v + acc * t <= V) ->
    (forall t, 0 <= t <= T -> g_min <= ga + gr * t <= g_max) ->
    (forall t, 0 <= t <= T -> r_min <= ro + rr * t <= r_max /\ c <= cos (ro + rr * t)) ->
    0 < vm -> 0 < c ->
    px 0 = x /\ py 0 = y /\ pz 0 = z /\ ps 0 = psi ->
    (forall t, 0 <= t <= T -> is_derive px t ((v + acc * t) * cos (ps t) * cos (ga + gr * t))) ->
    (forall t, 0 <= t <= T -> is_derive py t ((v + acc * t) * sin (ps t) * cos (ga + gr * t))) ->
    (forall t, 0 <= t <= T -> is_derive pz t (- (v + acc * t) * sin (ga + gr * t))) ->
    (forall t, 0 <= t <= T -> is_derive ps t (32.17 / (v + acc * t) * tan (ro + rr * t))) ->
    let turn := 32.17 * (Rabs acc / (vm * vm * c) + Rabs rr / (vm * (c * c))) in
    let move := Rabs acc + V * (32.17 / (vm * c) + Rabs gr) + V * turn * T in
    forall k, (0 < k)%nat -> exists e' x' y' z' hd' hd,
      run w e (repeat (Fin (T / INR k), AArr (A1 (map Fin [gr; rr; acc]))) k) = Ok e' /\
      e_state e' = A1 (map Fin [x'; y'; z'; hd'; ga + gr * T; ro + rr * T; v + acc * T]) /\
      same_angle hd' hd /\ Rabs (hd - ps T) <= turn * T * (T / INR k) /\
      Rabs (x' - px T) <= move * T * (T / INR k) /\
      Rabs (y' - py T) <= move * T * (T / INR k) /\
      Rabs (z' - pz T) <= (Rabs acc + V * Rabs gr) * T * (T / INR k).
Proof. exact dub3_converges. Qed.
Print Assumptions C107_dubins3d.

(** Accelerating from 100 ft/s at 1 ft/s^2 for 10 s in a level 45 degree bank: the heading
    approaches 32.17 (ln 110 - ln 100). *)
Example C107_dubins3d_example : forall (w : world xr) (px py : R -> R), px 0 = 0 -> py 0 = 0 ->
  (forall t, 0 <= t <= 10 -> is_derive px t ((100 + 1 * t) * cos (32.17 * (ln (100 + t) - ln 100)) * cos (0 + 0 * t))) ->
  (forall t, 0 <= t <= 10 -> is_derive py t ((100 + 1 * t) * sin (32.17 * (ln (100 + t) - ln 100)) * cos (0 + 0 * t))) ->
  exists K, forall k, (0 < k)%nat -> exists e' x' y' z' hd' hd,
  run w (dubins3d_aircraft 0 "Euler" (Fin 10) (Fin 200) (Fin (-1)) (Fin 1) (Fin (-1)) (Fin 1)
    (Fin (-1/10)) (Fin (1/20)) (Fin (-1/5)) (Fin (1/4)) (Fin (-3)) (Fin 4) (Fin 0) (Fin 0) (Fin 0) (Fin 0) (Fin 0) (Fin (PI/4)) (Fin 100))
    (repeat (Fin (10 / INR k), AArr (A1 (map Fin [0; 0; 1]))) k) = Ok e' /\
  e_state e' = A1 (map Fin [x'; y'; z'; hd'; 0; PI / 4; 110]) /\
  same_angle hd' hd /\ Rabs (hd - 32.17 * (ln 110 - ln 100)) <= K / INR k /\
  Rabs (x' - px 10) <= K / INR k /\ Rabs (y' - py 10) <= K / INR k.
Proof. exact conv_ex3. Qed.

(** Planar spacecraft with rotation: constant thrust in body axes and constant moment within the limits,
    angular velocity within its limit all the time. The error of all components is at most a constant
    over the number of steps; the angular velocity is exact. *)
Theorem C107_rot2d :
  forall (w : world xr) m inertia al vl iw aw vw n samples jax x0 y0 th0 vx0 vy0 wz0 e0 e acts x y th vx vy wz fx fy mz T,
    m <> 0 -> 0 < inertia -> (samples <= 0)%Z ->
    rot2d_spacecraft w (Fin m) (Fin inertia) (Fin al) (Fin vl) (Fin iw) (Fin aw) (Fin vw) (Fin n) samples "Euler" jax
      x0 y0 th0 vx0 vy0 wz0 = Ok e0 ->
    run w e0 acts = Ok e ->
    e_state e = A1 (map Fin [x; y; th; vx; vy; wz]) ->
    let acc := Rmin al (iw * aw / inertia) in
    let vel := Rmin vl (iw * vw / inertia) in
    -1 <= fx <= 1 -> -1 <= fy <= 1 -> - acc <= mz / inertia <= acc -> 0 <= T ->
    (forall t, 0 <= t <= T -> - vel <= wz + mz / inertia * t <= vel) ->
    forall px py pu pv : R -> R,
    px 0 = x /\ py 0 = y /\ pu 0 = vx /\ pv 0 = vy ->
    let pth t := th + wz * t + mz / inertia * t^2 / 2 in
    (forall t, 0 <= t <= T -> is_derive px t (pu t)) ->
    (forall t, 0 <= t <= T -> is_derive py t (pv t)) ->
    (forall t, 0 <= t <= T -> is_derive pu t (3 * n^2 * px t + 2 * n * pv t + (cos (pth t) * fx - sin (pth t) * fy) / m)) ->
    (forall t, 0 <= t <= T -> is_derive pv t (- 2 * n * pu t + (sin (pth t) * fx + cos (pth t) * fy) / m)) ->
    exists K, forall k, (0 < k)%nat -> exists e' x' y' th' ths vx' vy',
      run w e (repeat (Fin (T / INR k), AArr (A1 (map Fin [fx; fy; mz]))) k) = Ok e' /\
      e_state e' = A1 (map Fin [x'; y'; th'; vx'; vy'; wz + mz / inertia * T]) /\ same_angle th' ths /\
      within (K * (T / INR k)) [x'; y'; ths; vx'; vy'] [px T; py T; pth T; pu T; pv T].
Proof. exact rot_converges. Qed.
Print Assumptions C107_rot2d.

(** Turning at 1 rad/s while thrusting along the body x axis, no orbital motion: after half a turn the
    spacecraft is at (2, pi) / m with velocity (0, 2) / m. *)
Example C107_rot2d_example : exists e0 K, 
  rot2d_spacecraft (euler_world (N := XR Fin)) (Fin 2) (Fin 1) (Fin 1) (Fin 3) (Fin (1 / 50)) (Fin 100) (Fin 100) (Fin 0) 0 "Euler" false
    (Fin 0) (Fin 0) (Fin 0) (Fin 0) (Fin 0) (Fin 1) = Ok e0 /\
  forall k, (0 < k)%nat -> exists e' x' y' th' ths vx' vy',
    run (euler_world (N := XR Fin)) e0 (repeat (Fin (PI / INR k), AArr (A1 (map Fin [1; 0; 0]))) k) = Ok e' /\
    e_state e' = A1 (map Fin [x'; y'; th'; vx'; vy'; 1]) /\ same_angle th' ths /\
    within (K * (PI / INR k)) [x'; y'; ths; vx'; vy'] [1; PI / 2; PI; 0; 1].
Proof. exact conv_exr. Qed.
