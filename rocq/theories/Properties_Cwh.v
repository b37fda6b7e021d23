(** Properties C17-C21: the Clohessy-Wiltshire point-mass spacecraft. *)
From Coq Require Import String List Bool Arith ZArith Lia Reals Lra.
From Coquelicot Require Import Coquelicot.
From Verif Require Import PyBase Num Arr BaseModel Spec SpecBase XReal Cwh Integ SpecRk SpecCwh XTac
  RkLemmas CwhLemmas Float64.
Import List ListNotations.
Local Open Scope R_scope.

(** Exact arithmetic; the float32 cast is whatever the quantified [r32] says. *)
Local Hint Extern 0 (Num xr) => match goal with r : R -> xr |- _ => exact (XR r) end : typeclass_instances.

(** * C17 Clohessy-Wiltshire equations *)

Theorem C17_equations :
  forall (r32 : R -> xr) (m n : R) samples method x0 y0 z0 xd0 yd0 zd0 e,
    m <> 0 -> cwh_spacecraft (Fin m) (Fin n) samples method x0 y0 z0 xd0 yd0 zd0 = Ok e ->
    forall t x y z vx vy vz fx fy fz,
      compute_state_dot (e_dyn e) t (A1 [Fin x; Fin y; Fin z; Fin vx; Fin vy; Fin vz])
        (A1 [Fin fx; Fin fy; Fin fz])
      = Ok (A1 [Fin vx; Fin vy; Fin vz;
                Fin (3 * n^2 * x + 2 * n * vy + fx / m);
                Fin (- 2 * n * vx + fy / m);
                Fin (- n^2 * z + fz / m)]).
Proof.
  exact (fun r32 m n sa me _ _ _ _ _ _ e Hm E =>
    cwh_csd r32 m n sa me (e_dyn e) Hm (proj1 (cwh_spacecraft_dyn r32 _ _ _ _ _ _ _ _ _ _ _ E))).
Qed.
Print Assumptions C17_equations.

(** One Euler step of the spacecraft, with thrust within its limits. *)
Theorem C17_euler_step :
  forall (r32 : R -> xr) (w : world xr) (m n : R) samples e h x y z vx vy vz fx fy fz x0 y0 z0 xd0 yd0 zd0,
    m <> 0 -> (samples <= 0)%Z ->
    cwh_spacecraft (Fin m) (Fin n) samples "Euler" x0 y0 z0 xd0 yd0 zd0 = Ok e ->
    -1 <= fx <= 1 -> -1 <= fy <= 1 -> -1 <= fz <= 1 ->
    e_state e = A1 (map Fin [x; y; z; vx; vy; vz]) ->
    let o := entity_step w e (Fin h) (AArr (A1 [Fin fx; Fin fy; Fin fz])) in
    o_res o = Ok tt /\
    e_state (o_entity o) = A1 (map Fin
      [x + h * vx; y + h * vy; z + h * vz; vx + h * (3 * n^2 * x + 2 * n * vy + fx / m);
       vy + h * (- 2 * n * vx + fy / m); vz + h * (- n^2 * z + fz / m)]) /\
    e_sdot (o_entity o) = A1 (map Fin
      [vx; vy; vz; 3 * n^2 * x + 2 * n * vy + fx / m; - 2 * n * vx + fy / m; - n^2 * z + fz / m]).
Proof. exact cwh_euler. Qed.
Print Assumptions C17_euler_step.

(** The default spacecraft at (1, 2, 3): the hypotheses hold and the thrust matters. *)
Example C17_example :
  exists e, cwh_spacecraft (N := XR Fin) (Fin 12) (Fin 1) 0 "Euler" (Fin 1) (Fin 2) (Fin 3) (Fin 0) (Fin 1) (Fin 0) = Ok e /\
    e_state e = A1 (map Fin [1; 2; 3; 0; 1; 0]) /\
    compute_state_dot (N := XR Fin) (e_dyn e) (Fin 0) (e_state e) (A1 [Fin 1; Fin 0; Fin (-1)])
    = Ok (A1 [Fin 0; Fin 1; Fin 0; Fin (5 + 1 / 12); Fin 0; Fin (-3 - 1 / 12)]).
Proof.
  destruct (cwh_spacecraft (N := XR Fin) (Fin 12) (Fin 1) 0 "Euler" (Fin 1) (Fin 2) (Fin 3) (Fin 0) (Fin 1) (Fin 0))
    as [e|] eqn:E.
  - exists e. split; [reflexivity|].
    assert (S : e_state e = A1 (map Fin [1; 2; 3; 0; 1; 0])).
    { unfold cwh_spacecraft in E. destruct (cwh_dyn _ _ _ _); [|discriminate]. cbn [bind] in E. injection E as <-. reflexivity. }
    split; [exact S|]. rewrite S.
    pose proof (C17_equations Fin 12 1 0 "Euler" _ _ _ _ _ _ e ltac:(lra) E) as Q. cbn [map]. rewrite Q.
    fin_list; field.
  - exfalso. unfold cwh_spacecraft, cwh_dyn, generate_cwh_matrices, pydiv in E. revert E. xstep. discriminate.
Qed.

(** * C18 2d and 3d matrices agree; bad modes and zero mass are rejected *)

(** Over any numbers, binary64 in particular. Rows and columns 0 1 3 4 are x, y, x_dot,
    y_dot; 2 and 5 are z, z_dot. *)
Theorem C18_planar_restriction :
  forall T (N : Num T) (m n : T), neqb m n0 = false ->
    exists A2 B2 A3 B3,
      generate_cwh_matrices m n "2d" = Ok (A2, B2) /\ generate_cwh_matrices m n "3d" = Ok (A3, B3) /\
      A2 = submatrix n0 [0; 1; 3; 4]%nat [0; 1; 3; 4]%nat A3 /\
      B2 = submatrix n0 [0; 1; 3; 4]%nat [0; 1]%nat B3 /\
      submatrix n0 [2; 5]%nat [0; 1; 3; 4]%nat A3 = [[n0; n0; n0; n0]; [n0; n0; n0; n0]] /\
      submatrix n0 [0; 1; 3; 4]%nat [2; 5]%nat A3 = [[n0; n0]; [n0; n0]; [n0; n0]; [n0; n0]] /\
      submatrix n0 [2; 5]%nat [0; 1]%nat B3 = [[n0; n0]; [n0; n0]] /\
      submatrix n0 [0; 1; 3; 4]%nat [2]%nat B3 = [[n0]; [n0]; [n0]; [n0]].
Proof. exact (fun T N => @cwh_2d_3d T N). Qed.
Print Assumptions C18_planar_restriction.

Theorem C18_other_modes_rejected :
  forall T (N : Num T) (m n : T) mode, mode <> "2d"%string -> mode <> "3d"%string ->
    generate_cwh_matrices m n mode = Err AssertionError.
Proof. exact (fun T N => @cwh_mode T N). Qed.
Print Assumptions C18_other_modes_rejected.

Theorem C18_zero_mass_rejected :
  forall T (N : Num T) (m n : T) mode, neqb m n0 = true -> mode = "2d"%string \/ mode = "3d"%string ->
    generate_cwh_matrices m n mode = Err ZeroDivisionError.
Proof. exact (fun T N => @cwh_m0 T N). Qed.
Print Assumptions C18_zero_mass_rejected.

(** Binary64: mass 12 and n = 0.001027 meet the hypothesis; mass -0.0 is rejected. *)
Example C18_example :
  neqb (Num := F64 lm0) (fl 12 1) (n0 (N := F64 lm0)) = false /\
  generate_cwh_matrices (N := F64 lm0) (fl 0 1) (fl 1027 1000000) "3d" = Err ZeroDivisionError /\
  generate_cwh_matrices (N := F64 lm0) (fl 12 1) (fl 1027 1000000) "1d" = Err AssertionError.
Proof. repeat split; vm_compute; reflexivity. Qed.

(** * C19 The linear first integral y_dot + 2 n x survives numerical integration *)

(** For Euler, and for every integration method of the library when the solver is of
    Runge-Kutta type; for every run of steps without y thrust. *)
Theorem C19_first_integral :
  forall (r32 : R -> xr) (w : world xr) (m n : R) samples method x0 y0 z0 xd0 yd0 zd0 e0
         (acts : list (R * action xr)) e' x y z vx vy vz,
    m <> 0 -> method = "Euler"%string \/ rk_solver w ->
    cwh_spacecraft (Fin m) (Fin n) samples method x0 y0 z0 xd0 yd0 zd0 = Ok e0 ->
    Forall (fun p : R * action xr => no_y_thrust (snd p)) acts ->
    run w (set_state e0 (A1 (map Fin [x; y; z; vx; vy; vz]))) (fin_acts acts) = Ok e' ->
    exists x' y' z' vx' vy' vz', e_state e' = A1 (map Fin [x'; y'; z'; vx'; vy'; vz']) /\
      vy' + 2 * n * x' = vy + 2 * n * x.
Proof. exact cwh_first_integral. Qed.
Print Assumptions C19_first_integral.

(** Every explicit Runge-Kutta method whose weights sum to one is such a solver. *)
Theorem C19_explicit_rk_methods :
  forall tb : tableau, consistent tb -> rk_solver (erk_world tb).
Proof. exact erk_rk_solver. Qed.
Print Assumptions C19_explicit_rk_methods.

(** The classical Runge-Kutta method is one, and a step of it succeeds from any finite
    state under any thrust. *)
Example C19_example :
  consistent rk4 /\
  forall x y z vx vy vz fx fz h, exists e0,
    cwh_spacecraft (N := XR Fin) (Fin 12) (Fin (1/1000)) 0 "RK45" (Fin 0) (Fin 0) (Fin 0) (Fin 0) (Fin 0) (Fin 0) = Ok e0 /\
    is_ok (run (N := XR Fin) (erk_world rk4) (set_state e0 (A1 (map Fin [x; y; z; vx; vy; vz])))
                 (fin_acts [(h, AArr (A1 [Fin fx; Fin 0; Fin fz]))])) = true.
Proof.
  split; [split; [reflexivity|cbn; lra]|]. intros.
  destruct (cwh_spacecraft (N := XR Fin) (Fin 12) (Fin (1/1000)) 0 "RK45" (Fin 0) (Fin 0) (Fin 0) (Fin 0) (Fin 0) (Fin 0))
    as [e|] eqn:E.
  - exists e. split; [reflexivity|].
    destruct (cwh_spacecraft_dyn Fin _ _ _ _ _ _ _ _ _ _ _ E) as (Ed & _ & C1 & C2 & _).
    destruct (cwh_plain Fin _ _ _ _ _ Ed) as (H1 & H2 & H3 & H4 & H5 & H6 & H7).
    set (e1 := set_state e (A1 (map Fin [x; y; z; vx; vy; vz]))).
    destruct (erk_step_succeeds Fin rk4 e1 h [x; y; z; vx; vy; vz] [Fin fx; Fin 0; Fin fz]
      (map Fin (map (clipR (-1/1) (1/1)) [fx; 0; fz]))) as (O1 & _); auto.
    + split; [reflexivity|cbn; lra].
    + change (d_samples (e_dyn e) <= 0)%Z. rewrite H7. lia.
    + change (fits (e_cmin e) (A1 [Fin fx; Fin 0; Fin fz])). rewrite C1. exact I.
    + change (fits (e_cmax e) (A1 [Fin fx; Fin 0; Fin fz])). rewrite C2. exact I.
    + change (np_clip (N := XR Fin) (A1 [Fin fx; Fin 0; Fin fz]) (e_cmin e) (e_cmax e) =
        Ok (A1 (map Fin (map (clipR (-1 / 1) (1 / 1)) [fx; 0; fz])))).
      rewrite C1, C2. exact (np_clip_scalar Fin (-1/1) (1/1) [fx; 0; fz]).
    + intros t q L. destruct (len6 q L) as (q0 & q1 & q2 & q3 & q4 & q5 & ->).
      cbn [map]. change (e_dyn e1) with (e_dyn e).
      match goal with |- context [d_raw _ ?t0 _ (A1 [Fin ?p0; Fin ?p1; Fin ?p2])] =>
        rewrite (cwh_raw Fin 12 (1/1000) _ _ _ ltac:(lra) Ed t0 q0 q1 q2 q3 q4 q5 p0 p1 p2) end.
      match goal with |- context [Ok (A1 [Fin ?p0; Fin ?p1; Fin ?p2; Fin ?p3; Fin ?p4; Fin ?p5])] =>
        exists [p0; p1; p2; p3; p4; p5] end. split; reflexivity.
    + unfold fin_acts. cbn [map fst snd run]. rewrite O1. reflexivity.
  - exfalso. unfold cwh_spacecraft, cwh_dyn, generate_cwh_matrices, pydiv in E. revert E. xstep. discriminate.
Qed.

(** * C20 Exact flow *)

Theorem C20_closed_form_solves :
  forall (r32 : R -> xr) (m n : R) samples method d s,
    m <> 0 -> n <> 0 -> length s = 6%nat -> cwh_dyn (Fin m) (Fin n) samples method = Ok d ->
    solves d (A1 (map Fin [0; 0; 0])) (cw_flow n s) /\ cw_flow n s 0 = s.
Proof.
  exact (fun r32 m n sa me d s Hm Hn L E =>
    conj (cw_flow_solves r32 m n sa me d s Hm Hn L E) (cw_flow_0 n s Hn L)).
Qed.
Print Assumptions C20_closed_form_solves.

Theorem C20_unique :
  forall (r32 : R -> xr) (m n : R) samples method d sol,
    m <> 0 -> n <> 0 -> cwh_dyn (Fin m) (Fin n) samples method = Ok d ->
    length (sol 0) = 6%nat -> solves d (A1 (map Fin [0; 0; 0])) sol ->
    forall t, sol t = cw_flow n (sol 0) t.
Proof. exact cwh_unique. Qed.
Print Assumptions C20_unique.

Theorem C20_energies :
  forall (r32 : R -> xr) (m n : R) samples method d sol,
    m <> 0 -> cwh_dyn (Fin m) (Fin n) samples method = Ok d ->
    length (sol 0) = 6%nat -> solves d (A1 (map Fin [0; 0; 0])) sol ->
    let g := fun i t => nth i (sol t) 0 in
    forall t,
      g 3%nat t ^ 2 + g 4%nat t ^ 2 - 3 * n^2 * g 0%nat t ^ 2 =
      g 3%nat 0 ^ 2 + g 4%nat 0 ^ 2 - 3 * n^2 * g 0%nat 0 ^ 2 /\
      g 5%nat t ^ 2 + n^2 * g 2%nat t ^ 2 = g 5%nat 0 ^ 2 + n^2 * g 2%nat 0 ^ 2 /\
      g 4%nat t + 2 * n * g 0%nat t = g 4%nat 0 + 2 * n * g 0%nat 0.
Proof. exact cwh_energies. Qed.
Print Assumptions C20_energies.

(** After half an orbit the spacecraft released at rest at x = 1 has drifted: the flow is
    not periodic in y. *)
Example C20_example :
  cw_flow 1 [1; 0; 0; 0; 0; 0] PI = [7; - 6 * PI; 0; 0; -12; 0].
Proof.
  unfold cw_flow. cbv zeta. rewrite Rmult_1_l, sin_PI, cos_PI. fin_list; field.
Qed.

(** * C21 Superposition *)

Theorem C21_superposition :
  forall (r32 : R -> xr) (A B : list (list R)) samples method d t a b s1 s2 u1 u2,
    linear_dyn (map (map Fin) A) (map (map Fin) B) samples method = Ok d ->
    length s1 = length A -> length s2 = length A -> length u1 = length u2 ->
    Forall (fun r => length r = length u1) B ->
    exists r1 r2,
      compute_state_dot d t (A1 (map Fin s1)) (A1 (map Fin u1)) = Ok (A1 (map Fin r1)) /\
      compute_state_dot d t (A1 (map Fin s2)) (A1 (map Fin u2)) = Ok (A1 (map Fin r2)) /\
      compute_state_dot d t (A1 (map Fin (vlin a s1 b s2))) (A1 (map Fin (vlin a u1 b u2)))
      = Ok (A1 (map Fin (vlin a r1 b r2))).
Proof. exact linear_superposition'. Qed.
Print Assumptions C21_superposition.

(** Any number of Euler steps, with step sizes and controls varying from step to step. *)
Theorem C21_euler_runs :
  forall (r32 : R -> xr) (w : world xr) (A B : list (list R)) samples d dflt cmap k a b,
    linear_dyn (map (map Fin) A) (map (map Fin) B) samples "Euler" = Ok d -> (samples <= 0)%Z ->
    Forall (fun r => length r = k) B ->
    forall (l : list (R * list R * list R)) (e1 e2 e3 : entity xr) s1 s2,
    Forall (fun p : R * list R * list R => length (snd (fst p)) = k /\ length (snd p) = k) l ->
    (forall e, e = e1 \/ e = e2 \/ e = e3 -> e_dyn e = d /\ e_default e = dflt /\ e_cmin e = no_min /\
       e_cmax e = no_max /\ e_cmap e = cmap) ->
    length s1 = length A -> length s2 = length A ->
    e_state e1 = A1 (map Fin s1) -> e_state e2 = A1 (map Fin s2) ->
    e_state e3 = A1 (map Fin (vlin a s1 b s2)) ->
    exists e1' e2' e3' s1' s2',
      run w e1 (map (fun p => (Fin (fst (fst p)), AArr (A1 (map Fin (snd (fst p)))))) l) = Ok e1' /\
      run w e2 (map (fun p => (Fin (fst (fst p)), AArr (A1 (map Fin (snd p))))) l) = Ok e2' /\
      run w e3 (map (fun p => (Fin (fst (fst p)), AArr (A1 (map Fin (vlin a (snd (fst p)) b (snd p)))))) l) = Ok e3' /\
      e_state e1' = A1 (map Fin s1') /\ e_state e2' = A1 (map Fin s2') /\
      e_state e3' = A1 (map Fin (vlin a s1' b s2')).
Proof. exact run_superposition. Qed.
Print Assumptions C21_euler_runs.

(** The dynamics of CWHSpacecraft and of the 1d integrator are instances. *)
Example C21_example :
  (exists A B, linear_dyn (N := XR Fin) (map (map Fin) A) (map (map Fin) B) 0 "Euler" =
     cwh_dyn (N := XR Fin) (Fin 12) (Fin 2) 0 "Euler" /\ Forall (fun r => length r = 3%nat) B /\
     is_ok (cwh_dyn (N := XR Fin) (Fin 12) (Fin 2) 0 "Euler") = true) /\
  (exists A B, linear_dyn (N := XR Fin) (map (map Fin) A) (map (map Fin) B) 0 "Euler" =
     integ_dyn (N := XR Fin) (Fin 2) (Fin (1/2)) "1d" 0 "Euler" /\ Forall (fun r => length r = 1%nat) B /\
     is_ok (integ_dyn (N := XR Fin) (Fin 2) (Fin (1/2)) "1d" 0 "Euler") = true).
Proof.
  split.
  - exists [[0/1; 0/1; 0/1; 1/1; 0/1; 0/1]; [0/1; 0/1; 0/1; 0/1; 1/1; 0/1]; [0/1; 0/1; 0/1; 0/1; 0/1; 1/1];
            [3/1*(2*2); 0/1; 0/1; 0/1; 2/1*2; 0/1]; [0/1; 0/1; 0/1; -2/1*2; 0/1; 0/1]; [0/1; 0/1; -(2*2); 0/1; 0/1; 0/1]],
           [[0/1; 0/1; 0/1]; [0/1; 0/1; 0/1]; [0/1; 0/1; 0/1]; [1/1/12; 0/1; 0/1]; [0/1; 1/1/12; 0/1]; [0/1; 0/1; 1/1/12]].
    unfold cwh_dyn, generate_cwh_matrices, pydiv. xstep. repeat split; repeat constructor.
  - exists [[0/1; 1/1]; [0/1; -(1/2)]], [[0/1]; [1/1/2]].
    unfold integ_dyn, generate_dynamics_matrices, pydiv. xstep. repeat split; repeat constructor.
Qed.
