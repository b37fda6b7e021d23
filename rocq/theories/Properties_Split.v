(** Property C108: only the elapsed time matters, and a step can be split. *)
From Coq Require Import String List ZArith Reals.
From Verif Require Import PyBase Num Arr BaseModel Spec SpecBase XReal Cwh Sun Rot2d SixDof Dubins Integ SpecGlide GlideLemmas SpecRk SpecCwh SpecFlow SpecSplit SplitLemmas.
Import List ListNotations.
Local Open Scope R_scope.

(** The dynamics of every vehicle are the same at all times. *)
Theorem C108_autonomous :
  forall (T : Type) (N : Num T),
    (forall m n samples method d, cwh_dyn m n samples method = Ok d -> autonomous d) /\
    (forall w m i acc vel n samples method jax d, rot2d_dyn w m i acc vel n samples method jax = Ok d -> autonomous d) /\
    (forall m I vel n body samples method d, sixdof_dyn m I vel n body samples method = Ok d -> autonomous d) /\
    (forall w n method jax d, sun_dyn w n method jax = Ok d -> autonomous d) /\
    (forall m damping mode samples method d, integ_dyn m damping mode samples method = Ok d -> autonomous d) /\
    (forall v_min v_max samples method, autonomous (dubins2d_dyn v_min v_max samples method)) /\
    (forall g v_min v_max g_min g_max r_min r_max samples method,
       autonomous (dubins3d_dyn g v_min v_max g_min g_max r_min r_max samples method)).
Proof. exact @all_autonomous. Qed.
Print Assumptions C108_autonomous.

(** Default method, solver without error, any dynamics of that kind, any limits: when the first
    part of the step ends on the solution [phi] of the equation (so neither limits nor wrapping
    interfered with it), the second part ends in the state, and with the derivative, of one step
    of the total length. [l] is the command, [l'] the command after saturation. *)
Theorem C108_split :
  forall (r32 : R -> xr) (w : world xr) e h1 h2 l l' phi, let _ := XR r32 in
    autonomous (e_dyn e) -> d_method (e_dyn e) = "RK45"%string ->
    fits (e_cmin e) (A1 l) -> fits (e_cmax e) (A1 l) -> np_clip (A1 l) (e_cmin e) (e_cmax e) = Ok (A1 l') ->
    exact_on w (fun t x => compute_state_dot (N := XR r32) (e_dyn e) t x (A1 l')) ->
    integral_curve (fun t x => compute_state_dot (N := XR r32) (e_dyn e) t x (A1 l')) phi ->
    e_state e = A1 (map Fin (phi 0)) ->
    let o := entity_step w e (Fin (h1 + h2)) (AArr (A1 l)) in
    let o1 := entity_step w e (Fin h1) (AArr (A1 l)) in
    let o2 := entity_step w (o_entity o1) (Fin h2) (AArr (A1 l)) in
    o_res o = Ok tt -> o_res o1 = Ok tt -> e_state (o_entity o1) = A1 (map Fin (phi h1)) ->
    o_res o2 = Ok tt /\ e_state (o_entity o2) = e_state (o_entity o) /\ e_sdot (o_entity o2) = e_sdot (o_entity o).
Proof. exact split_step. Qed.
Print Assumptions C108_split.

(** Without limits and angles the same holds for any number of parts: the state is that of the
    solution at the total time. *)
Theorem C108_run :
  forall (r32 : R -> xr) (w : world xr) l l', let _ := XR r32 in forall hs e phi,
    autonomous (e_dyn e) -> d_min (e_dyn e) = no_min -> d_max (e_dyn e) = no_max -> d_wrap (e_dyn e) = None ->
    d_method (e_dyn e) = "RK45"%string ->
    fits (e_cmin e) (A1 l) -> fits (e_cmax e) (A1 l) -> np_clip (A1 l) (e_cmin e) (e_cmax e) = Ok (A1 l') ->
    exact_on w (fun t x => compute_state_dot (N := XR r32) (e_dyn e) t x (A1 l')) ->
    integral_curve (fun t x => compute_state_dot (N := XR r32) (e_dyn e) t x (A1 l')) phi ->
    e_state e = A1 (map Fin (phi 0)) ->
    exists e', run w e (map (fun h => (Fin h, AArr (A1 l))) hs) = Ok e' /\ e_state e' = A1 (map Fin (phi (fold_right Rplus 0 hs))).
Proof. exact split_run. Qed.
Print Assumptions C108_run.

Local Hint Extern 0 (Num xr) => exact (XR Fin) : typeclass_instances.

(** Mass 2, from rest under a command of 5 (saturated at 1): 1 s and 3 s are 4 s. *)
Example C108_example : exists e,
  integrator1d_body (Fin 2) (Fin 0) 0 "RK45" (Fin 0) (Fin 0) = Ok e /\
  let a := AArr (A1 (map Fin [5])) in
  let o := entity_step (glide_world 2 0 1) e (Fin (1 + 3)) a in
  let o1 := entity_step (glide_world 2 0 1) e (Fin 1) a in
  let o2 := entity_step (glide_world 2 0 1) (o_entity o1) (Fin 3) a in
  e_state (o_entity o1) = A1 (map Fin [1 / 4; 1 / 2]) /\
  e_state (o_entity o2) = e_state (o_entity o) /\ e_state (o_entity o) = A1 (map Fin [4; 2]) /\
  e_sdot (o_entity o2) = e_sdot (o_entity o).
Proof. exact split_ex. Qed.

(** Euler integration does not have the property: a planar aircraft in a turn. *)
Example C108_euler_differs :
  forall w : world xr,
    let e := dubins2d_aircraft 0 "Euler" (Fin 0) (Fin 10) (Fin (-4)) (Fin 4) (Fin (-1)) (Fin 1) (Fin 0) (Fin 0) (Fin 0) (Fin 1) in
    let a := AArr (A1 (map Fin [PI / 2; 0])) in
    exists e1 e2 y1 h1 y2 h2,
      run w e [(Fin (1 + 1), a)] = Ok e1 /\ run w e [(Fin 1, a); (Fin 1, a)] = Ok e2 /\
      e_state e1 = A1 (map Fin [2; y1; h1; 1]) /\ e_state e2 = A1 (map Fin [1; y2; h2; 1]).
Proof. exact euler_unsplit. Qed.

(** A step of no duration leaves a state that limits and wrapping leave alone as it was: Euler, *)
Theorem C108_rest_euler :
  forall (r32 : R -> xr) (w : world xr) e s l l' ds, let _ := XR r32 in
    d_method (e_dyn e) = "Euler"%string -> (d_samples (e_dyn e) <= 0)%Z ->
    fits (e_cmin e) (A1 l) -> fits (e_cmax e) (A1 l) -> np_clip (A1 l) (e_cmin e) (e_cmax e) = Ok (A1 l') ->
    e_state e = A1 (map Fin s) -> length ds = length s ->
    compute_state_dot (e_dyn e) (Fin (0 / 1)) (A1 (map Fin s)) (A1 l') = Ok (A1 (map Fin ds)) ->
    np_clip (e_state e) (d_min (e_dyn e)) (d_max (e_dyn e)) = Ok (e_state e) ->
    wrap_angles (e_dyn e) (e_state e) = Ok (e_state e) ->
    let o := entity_step w e (Fin 0) (AArr (A1 l)) in
    o_res o = Ok tt /\ e_state (o_entity o) = e_state e /\ e_sdot (o_entity o) = A1 (map Fin ds).
Proof. exact euler_rest. Qed.
Print Assumptions C108_rest_euler.

(** the default method with a solver without error, *)
Theorem C108_rest_rk45 :
  forall (r32 : R -> xr) (w : world xr) e l l' phi, let _ := XR r32 in
    d_method (e_dyn e) = "RK45"%string ->
    fits (e_cmin e) (A1 l) -> fits (e_cmax e) (A1 l) -> np_clip (A1 l) (e_cmin e) (e_cmax e) = Ok (A1 l') ->
    exact_on w (fun t x => compute_state_dot (N := XR r32) (e_dyn e) t x (A1 l')) ->
    integral_curve (fun t x => compute_state_dot (N := XR r32) (e_dyn e) t x (A1 l')) phi ->
    e_state e = A1 (map Fin (phi 0)) ->
    np_clip (e_state e) (d_min (e_dyn e)) (d_max (e_dyn e)) = Ok (e_state e) ->
    wrap_angles (e_dyn e) (e_state e) = Ok (e_state e) ->
    let o := entity_step w e (Fin 0) (AArr (A1 l)) in
    o_res o = Ok tt /\ e_state (o_entity o) = e_state e.
Proof. exact exact_rest. Qed.
Print Assumptions C108_rest_rk45.

(** and in particular a planar aircraft after any history, whatever the command. *)
Theorem C108_rest_dubins2d :
  forall (w : world xr) samples v_min v_max hr_min hr_max acc_min acc_max x0 y0 hd0 v0 acts e x y hd v hr acc,
    (samples <= 0)%Z ->
    run w (dubins2d_aircraft samples "Euler" (Fin v_min) (Fin v_max) (Fin hr_min) (Fin hr_max) (Fin acc_min) (Fin acc_max) x0 y0 hd0 v0) acts = Ok e ->
    e_state e = A1 (map Fin [x; y; hd; v]) -> - PI <= hd < PI -> v_min <= v <= v_max ->
    let o := entity_step w e (Fin 0) (AArr (A1 (map Fin [hr; acc]))) in
    o_res o = Ok tt /\ e_state (o_entity o) = e_state e.
Proof. exact dub2_rest. Qed.
Print Assumptions C108_rest_dubins2d.
