(** Property C105: aircraft commands act on their own axis, within their own limits. *)
From Coq Require Import String List ZArith Reals.
From Verif Require Import PyBase Num Arr BaseModel XReal Dubins SpecWrap SpecCwh SpecCommand CommandLemmas.
Import List ListNotations.
Local Open Scope R_scope.
Local Hint Extern 0 (Num xr) => exact (XR Fin) : typeclass_instances.

(** One Euler step of the planar aircraft after any history. The heading changes at the heading rate
    command saturated to the heading rate limits, the speed at the acceleration command saturated to
    the acceleration limits unless that would leave the speed limits; neither command moves the
    position within the step. *)
Theorem C105_dubins2d_euler : forall (w : world xr) samples v_min v_max hr_min hr_max acc_min acc_max x0 y0 hd0 v0 acts e h x y hd v hr acc,
  (samples <= 0)%Z ->
  run w (dubins2d_aircraft samples "Euler" (Fin v_min) (Fin v_max) (Fin hr_min) (Fin hr_max) (Fin acc_min) (Fin acc_max) x0 y0 hd0 v0) acts = Ok e ->
  e_state e = A1 (map Fin [x; y; hd; v]) ->
  let o := entity_step w e (Fin h) (AArr (A1 (map Fin [hr; acc]))) in
  let a := stopR v_min v_max v (clipR acc_min acc_max acc) in
  o_res o = Ok tt /\
  e_sdot (o_entity o) = A1 (map Fin [v * cos hd; v * sin hd; clipR hr_min hr_max hr; a]) /\
  exists hd', - PI <= hd' < PI /\ same_angle hd' (hd + h * clipR hr_min hr_max hr) /\
    e_state (o_entity o) = A1 (map Fin [x + h * (v * cos hd); y + h * (v * sin hd); hd'; clipR v_min v_max (v + h * a)]).
Proof. intros *. exact (dubins2d_euler (fun x => x) _ _ _ _ _ _ _ _ _ _ _ _ _ _ _ _ _ _ _ _ _ eq_refl). Qed.
Print Assumptions C105_dubins2d_euler.

Example C105_dubins2d_example : forall w : world xr, exists hd',
  let o := entity_step w (dubins2d_aircraft 0 "Euler" (Fin 10) (Fin 200) (Fin (-1)) (Fin 2) (Fin (-3)) (Fin 4)
    (Fin 1) (Fin 2) (Fin 0) (Fin 100)) (Fin 1) (AArr (A1 (map Fin [5; -50]))) in
  o_res o = Ok tt /\ e_sdot (o_entity o) = A1 (map Fin [100; 0; 2; -3]) /\ same_angle hd' 2 /\
  e_state (o_entity o) = A1 (map Fin [101; 2; hd'; 97]).
Proof. exact C105_ex2. Qed.

(** The same for the aircraft in space: the flight path, roll and speed commands each use their own
    limits, and the heading turns at 32.17 ft/s^2 over the speed, times the tangent of the roll. *)
Theorem C105_dubins3d_euler : forall (w : world xr) samples v_min v_max g_min g_max r_min r_max gr_min gr_max rr_min rr_max acc_min acc_max
    x0 y0 z0 hd0 ga0 ro0 v0 acts e h x y z hd ga ro v gr rr acc,
  (samples <= 0)%Z -> v <> 0 -> cos ro <> 0 ->
  run w (dubins3d_aircraft samples "Euler" (Fin v_min) (Fin v_max) (Fin g_min) (Fin g_max) (Fin r_min) (Fin r_max)
           (Fin gr_min) (Fin gr_max) (Fin rr_min) (Fin rr_max) (Fin acc_min) (Fin acc_max) x0 y0 z0 hd0 ga0 ro0 v0) acts = Ok e ->
  e_state e = A1 (map Fin [x; y; z; hd; ga; ro; v]) ->
  let o := entity_step w e (Fin h) (AArr (A1 (map Fin [gr; rr; acc]))) in
  let dga := stopR g_min g_max ga (clipR gr_min gr_max gr) in
  let dro := stopR r_min r_max ro (clipR rr_min rr_max rr) in
  let a := stopR v_min v_max v (clipR acc_min acc_max acc) in
  o_res o = Ok tt /\
  e_sdot (o_entity o) = A1 (map Fin [v * cos hd * cos ga; v * sin hd * cos ga; - v * sin ga; 32.17 / v * tan ro; dga; dro; a]) /\
  exists hd' ga' ro',
    (- PI <= hd' < PI /\ same_angle hd' (hd + h * (32.17 / v * tan ro))) /\
    (- PI <= ga' < PI /\ same_angle ga' (clipR g_min g_max (ga + h * dga))) /\
    (- PI <= ro' < PI /\ same_angle ro' (clipR r_min r_max (ro + h * dro))) /\
    e_state (o_entity o) = A1 (map Fin [x + h * (v * cos hd * cos ga); y + h * (v * sin hd * cos ga); z + h * (- v * sin ga);
      hd'; ga'; ro'; clipR v_min v_max (v + h * a)]).
Proof. intros *. exact (dubins3d_euler (fun x => x) _ _ _ _ _ _ _ _ _ _ _ _ _ _ _ _ _ _ _ _ _ _ _ _ _ _ _ _ _ _ _ _ _ _ eq_refl). Qed.
Print Assumptions C105_dubins3d_euler.

Example C105_dubins3d_example : forall w : world xr,
  let o := entity_step w (dubins3d_aircraft 0 "Euler" (Fin 10) (Fin 200) (Fin (-1)) (Fin 1) (Fin (-1)) (Fin 1)
    (Fin (-1/10)) (Fin (1/20)) (Fin (-1/5)) (Fin (1/4)) (Fin (-3)) (Fin 4)
    (Fin 1) (Fin 2) (Fin 3) (Fin 0) (Fin 0) (Fin (PI/4)) (Fin 100)) (Fin 1) (AArr (A1 (map Fin [5; -5; 50]))) in
  o_res o = Ok tt /\ e_sdot (o_entity o) = A1 (map Fin [100; 0; 0; 0.3217; 1/20; -1/5; 4]).
Proof. exact C105_ex3. Qed.

(** Every integration method, every solver: after a successful step the reported rate of each commanded
    component is the command saturated to its own limits, or zero (the component is at a limit). *)
Theorem C105_dubins2d_any_solver : forall (w : world xr) samples method v_min v_max hr_min hr_max acc_min acc_max x y hd v acts e h hr acc,
  run w (dubins2d_aircraft samples method v_min v_max (Fin hr_min) (Fin hr_max) (Fin acc_min) (Fin acc_max) x y hd v) acts = Ok e ->
  let o := entity_step w e h (AArr (A1 (map Fin [hr; acc]))) in o_res o = Ok tt ->
  (rate_is (e_sdot (o_entity o)) 2 (clipR hr_min hr_max hr) \/ rate_is (e_sdot (o_entity o)) 2 0) /\
  (rate_is (e_sdot (o_entity o)) 3 (clipR acc_min acc_max acc) \/ rate_is (e_sdot (o_entity o)) 3 0).
Proof. exact (dubins2d_command (fun x => x)). Qed.
Print Assumptions C105_dubins2d_any_solver.

Theorem C105_dubins3d_any_solver : forall (w : world xr) samples method v_min v_max g_min g_max r_min r_max gr_min gr_max rr_min rr_max acc_min acc_max
    x y z hd ga ro v acts e h gr rr acc,
  run w (dubins3d_aircraft samples method v_min v_max g_min g_max r_min r_max (Fin gr_min) (Fin gr_max) (Fin rr_min) (Fin rr_max)
           (Fin acc_min) (Fin acc_max) x y z hd ga ro v) acts = Ok e ->
  let o := entity_step w e h (AArr (A1 (map Fin [gr; rr; acc]))) in o_res o = Ok tt ->
  (rate_is (e_sdot (o_entity o)) 4 (clipR gr_min gr_max gr) \/ rate_is (e_sdot (o_entity o)) 4 0) /\
  (rate_is (e_sdot (o_entity o)) 5 (clipR rr_min rr_max rr) \/ rate_is (e_sdot (o_entity o)) 5 0) /\
  (rate_is (e_sdot (o_entity o)) 6 (clipR acc_min acc_max acc) \/ rate_is (e_sdot (o_entity o)) 6 0).
Proof. exact (dubins3d_command (fun x => x)). Qed.
Print Assumptions C105_dubins3d_any_solver.
