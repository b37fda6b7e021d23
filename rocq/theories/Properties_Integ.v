(** Properties C32-C37: the sun, the point-mass integrators, construction and control maps. *)
From Coq Require Import String List Bool Arith ZArith Lia Reals Lra.
From Flocq Require Import Core.Core IEEE754.BinarySingleNaN.
From Verif Require Import PyBase Num Arr BaseModel Spec SpecBase XReal Float64 XTac Cwh Utils Rot2d SixDof Sun Integ Dubins
  Classes Units SpecRk SpecCwh SpecInteg SpecClasses RkLemmas CwhLemmas IntegLemmas ClassLemmas EqLemmas ConfigLemmas IntegProps.
Import List ListNotations.
Local Open Scope R_scope.

Local Hint Extern 0 (Num xr) =>
  match goal with
  | r : R -> xr |- _ => exact (XR r)
  | _ => exact (XR Fin)
  end : typeclass_instances.

(** * C32 Sun motion *)

(** From any angle, after any successful sequence of steps: Euler, or any solver of
    Runge-Kutta type that reaches the end of the step. *)
Theorem C32_sun_angle :
  forall (r32 : R -> xr) (w : world xr) (n : R) method jax theta (th0 : R) (acts : list (R * action xr)) e e',
    (method = "Euler"%string \/ rk_solver w /\ reaches_end w) ->
    sun_entity w (Fin n) method jax theta = Ok e ->
    run w (set_state e (A1 [Fin th0])) (fin_acts acts) = Ok e' ->
    sun_theta e' = Ok (Fin (th0 + n * elapsed acts)).
Proof. exact sun_run. Qed.
Print Assumptions C32_sun_angle.

(** Euler steps without an action never fail, so the formula holds for every sequence of
    step sizes. *)
Theorem C32_sun_steps_succeed :
  forall (r32 : R -> xr) (w : world xr) (n : R) jax theta e (hs : list R),
    sun_entity w (Fin n) "Euler" jax theta = Ok e ->
    forall th0, exists e', run w (set_state e (A1 [Fin th0])) (fin_acts (map (fun h => (h, ANone)) hs)) = Ok e'.
Proof. exact sun_total. Qed.
Print Assumptions C32_sun_steps_succeed.

Example C32_example : forall h1 h2 : R, exists e e',
  sun_entity (N := XR Fin) euler_world (Fin (1/1000)) "Euler" false (Fin 2) = Ok e /\
  run (N := XR Fin) euler_world (set_state e (A1 [Fin 2])) (fin_acts [(h1, ANone); (h2, ANone)]) = Ok e' /\
  sun_theta e' = Ok (Fin (2 + 1/1000 * (h1 + (h2 + 0)))).
Proof.
  intros h1 h2. destruct (sun_entity (N := XR Fin) euler_world (Fin (1/1000)) "Euler" false (Fin 2)) as [e|] eqn:E; [|discriminate].
  destruct (sun_total Fin euler_world (1/1000) false (Fin 2) e [h1; h2] E 2) as (e' & Hr).
  exists e, e'. split; [reflexivity|]. split; [exact Hr|].
  exact (sun_run Fin euler_world (1/1000) "Euler" false (Fin 2) 2 _ e e' (or_introl eq_refl) E Hr).
Qed.

(** * C33 Sun equality *)

(** Suns at the same angle are equal: true, because any two suns are.
    Missing: suns at different angles are unequal, which is false. *)
Theorem C33_same_angle_equal_partial :
  forall (T : Type) (N : Num T) ae (a b : obj T),
    lib (o_cls a) = SunEntityC -> lib (o_cls b) = SunEntityC -> py_eq ae a b = Ok true.
Proof. intros T N. exact sun_eq. Qed.
Print Assumptions C33_same_angle_equal_partial.

(** Full statement: [py_eq ae a b = Ok true <-> same angle]. It fails: freshly constructed
    suns at different angles are equal. *)
Theorem C33_refuted :
  exists (a b : obj xr) ta tb,
    (forall ae, py_eq ae a b = Ok true) /\
    sun_theta (o_ent a) = Ok (Fin ta) /\ sun_theta (o_ent b) = Ok (Fin tb) /\ 0 <= ta < 2 * PI /\ 0 <= tb < 2 * PI /\ ta <> tb /\
    make euler_world 1 SunEntityC (PSun (Fin (1/1000)) "RK45" false) [("name", CStr "sun" None); ("theta", CNum (Fin 0))]%string = Ok a /\
    make euler_world 2 SunEntityC (PSun (Fin (1/1000)) "RK45" false) [("name", CStr "sun" None); ("theta", CNum (Fin 3))]%string = Ok b.
Proof.
  eexists _, _, 0, 3. split; [|split; [|split; [|split; [|split; [|split; [|split; reflexivity]]]]]].
  - intros ae. reflexivity.
  - reflexivity.
  - reflexivity.
  - pose proof PI_RGT_0; lra.
  - pose proof PI2_3_2; lra.
  - lra.
Qed.
Print Assumptions C33_refuted.

(** * C34 Integrator equations *)

Theorem C34_equations :
  forall (r32 : R -> xr) (m c : R) mode k samples method d t (ps vs us : list R),
    m <> 0 -> offered mode k ->
    integ_dyn (Fin m) (Fin c) mode samples method = Ok d -> length ps = k -> length vs = k -> length us = k ->
    compute_state_dot d t (point_state ps vs) (A1 (map Fin us)) =
    Ok (A1 (map Fin (vs ++ zipw (axis_accel m c) vs us))).
Proof. exact integ_derivative. Qed.
Print Assumptions C34_equations.

Theorem C34_other_modes_rejected :
  forall (r32 : R -> xr) (m c : xr) mode samples method, (forall k, ~ offered mode k) ->
    integ_dyn m c mode samples method = Err AssertionError.
Proof. exact integ_mode. Qed.
Print Assumptions C34_other_modes_rejected.

Theorem C34_zero_mass_rejected :
  forall (r32 : R -> xr) (m c : xr) mode k samples method, offered mode k -> neqb m n0 = true ->
    integ_dyn m c mode samples method = Err ZeroDivisionError.
Proof. exact integ_m0. Qed.
Print Assumptions C34_zero_mass_rejected.

(** One Euler step under controls within the limits. [e] is an integrator entity: the
    dynamics object of that dimension, controls limited to [-1, 1], default zero. *)
Theorem C34_euler_step :
  forall (r32 : R -> xr) (w : world xr) (m c : R) mode k samples e (h : R) (ps vs us : list R),
    m <> 0 -> offered mode k -> (samples <= 0)%Z ->
    plain_integ r32 m c mode k samples "Euler" e ->
    length ps = k -> length vs = k -> length us = k -> Forall (fun u => -1 <= u <= 1) us ->
    e_state e = point_state ps vs ->
    let o := entity_step w e (Fin h) (AArr (A1 (map Fin us))) in
    o_res o = Ok tt /\
    e_state (o_entity o) = point_state (vaxpy ps h vs) (vaxpy vs h (zipw (axis_accel m c) vs us)).
Proof. exact integ_euler. Qed.
Print Assumptions C34_euler_step.

(** Damped free motion never speeds up on any axis (sharp bound: damping * h <= 2). *)
Theorem C34_damped_never_faster :
  forall (r32 : R -> xr) (w : world xr) (m c : R) mode k samples (acts : list (R * action xr)) e ps vs,
    m <> 0 -> offered mode k -> (samples <= 0)%Z ->
    Forall (fun p : R * action xr => no_thrust k (snd p)) acts ->
    (forall p, In p acts -> 0 <= c * fst p <= 2) ->
    plain_integ r32 m c mode k samples "Euler" e ->
    length ps = k -> length vs = k -> e_state e = point_state ps vs ->
    exists e' ps' vs', run w e (fin_acts acts) = Ok e' /\ e_state e' = point_state ps' vs' /\
      length ps' = k /\ no_faster vs' vs.
Proof. exact integ_damped. Qed.
Print Assumptions C34_damped_never_faster.

(** Without damping and thrust the velocity is constant forever, for Euler and for every
    solver of Runge-Kutta type. *)
Theorem C34_coasting :
  forall (r32 : R -> xr) (w : world xr) (m : R) mode k samples method (acts : list (R * action xr)) e e' ps vs,
    m <> 0 -> offered mode k -> method = "Euler"%string \/ rk_solver w ->
    Forall (fun p : R * action xr => no_thrust k (snd p)) acts ->
    plain_integ r32 m 0 mode k samples method e ->
    length ps = k -> length vs = k -> e_state e = point_state ps vs ->
    run w e (fin_acts acts) = Ok e' ->
    exists ps', e_state e' = point_state ps' vs /\ length ps' = k.
Proof. exact integ_coast. Qed.
Print Assumptions C34_coasting.

(** The constructors make such entities. *)
Theorem C34_constructors :
  forall (r32 : R -> xr) (m c : R) samples method, m <> 0 ->
    (forall x vx e, integrator1d_body (Fin m) (Fin c) samples method x vx = Ok e ->
       plain_integ r32 m c "1d" 1 samples method e) /\
    (forall x y vx vy e, integrator2d_body (Fin m) (Fin c) samples method x y vx vy = Ok e ->
       plain_integ r32 m c "2d" 2 samples method e) /\
    (forall x y z vx vy vz e, integrator3d_body (Fin m) (Fin c) samples method x y z vx vy vz = Ok e ->
       plain_integ r32 m c "3d" 3 samples method e).
Proof. exact bodies_plain. Qed.
Print Assumptions C34_constructors.

(** A damped 2d integrator: one coasting Euler step halves the velocity. *)
Example C34_example : exists e,
  integrator2d_body (N := XR Fin) (Fin 2) (Fin (1/2)) 0 "Euler" (Fin 0) (Fin 0) (Fin 4) (Fin (-6)) = Ok e /\
  exists e', run (N := XR Fin) euler_world e (fin_acts [(1, ANone)]) = Ok e' /\
    e_state e' = point_state [4; -6] [2; -3].
Proof.
  destruct (integrator2d_body (N := XR Fin) (Fin 2) (Fin (1/2)) 0 "Euler" (Fin 0) (Fin 0) (Fin 4) (Fin (-6))) as [e|] eqn:E.
  - exists e. split; [reflexivity|].
    destruct (bodies_plain Fin 2 (1/2) 0 "Euler" ltac:(lra)) as (_ & P & _). specialize (P _ _ _ _ _ E).
    assert (Es : e_state e = point_state [0; 0] [4; -6]).
    { unfold integrator2d_body in E. destruct (integ_dyn _ _ _ _ _); [|discriminate]. cbn [bind] in E. injection E as <-. reflexivity. }
    assert (Of : offered "2d" 2) by (right; left; auto).
    destruct (integ_euler Fin euler_world 2 (1/2) "2d" 2 0 e 1 [0; 0] [4; -6] [0; 0] ltac:(lra) Of ltac:(lia) P
                eq_refl eq_refl eq_refl (repeat_bound 2) Es) as (R1 & R2).
    eexists. split.
    + cbn [fin_acts map run fst snd]. pose proof P as (_ & _ & _ & D).
      rewrite (no_thrust_step Fin euler_world e 2 1 ANone D (or_introl eq_refl)). cbn [repeat map] in R1 |- *.
      rewrite R1. reflexivity.
    + cbn [repeat map] in R2 |- *. rewrite R2. unfold point_state, axis_accel. cbn. fin_list; lra.
  - exfalso. revert E. unfold integrator2d_body, integ_dyn, generate_dynamics_matrices, pydiv. cbn.
    rewrite (Req_bool_false 2 (0 / 1)) by lra. cbn. discriminate.
Qed.

(** * C35 Entities can be constructed *)

(** All exported classes but the integrators, with any reasonable parameters and any
    configuration the documentation allows; the number type is arbitrary.
    Missing: the integrators, where it is false. *)
Theorem C35_constructible_partial :
  forall (T : Type) (N : Num T) (w : world T) id c p (kw : kwargs T),
    In c exported -> ~ In c [Integrator1dC; Integrator2dC; Integrator3dC] ->
    c = pcls p -> good_params w p -> good_config c kw ->
    exists o, make w id c p kw = Ok o.
Proof.
  intros T N w id c p kw Ie Ni -> Gp Gc. apply make_good; auto; destruct p; try reflexivity;
    exfalso; apply Ni; cbn; auto.
Qed.
Print Assumptions C35_constructible_partial.

Example C35_example : good_params (N := XR Fin) euler_world (PCwh (Fin 12) (Fin (1/1000)) 0 "RK45") /\
  good_config (N := XR Fin) CWHSpacecraftC [("name", CStr "chaser" None); ("x", CNum (Fin 100)); ("y", CQty {| q_mag := Fin 2; q_unit := meter |})]%string.
Proof.
  split; [cbn; rewrite (Req_bool_false 12 (0 / 1)) by lra; reflexivity|]. split; [eexists _, _; reflexivity|]. split.
  - intros f [<-|[<-|[<-|[]]]]; cbn; auto.
  - intros f k v I G. cbn in I. repeat (destruct I as [I|I]; [injection I as <- <-; cbn in G; try discriminate; injection G as <-; cbn; auto|]).
    + split; [|reflexivity]. intros u [<-|[<-|[<-|[<-|[<-|[<-|[]]]]]]] H; try discriminate; reflexivity.
    + destruct I.
Qed.

(** Full statement: every exported class can be instantiated. It fails for all three
    integrators, whatever the arguments: their class leaves [orientation] abstract. *)
Theorem C35_refuted :
  exists c, In c exported /\
    forall (T : Type) (N : Num T) (w : world T) id p (kw : kwargs T), make w id c p kw = Err TypeError.
Proof. exists Integrator1dC. split; [cbn; auto 10|]. intros. apply integ_abstract. left; auto. Qed.
Print Assumptions C35_refuted.

Theorem C35_no_integrator_constructible :
  forall (T : Type) (N : Num T) (w : world T) id c p (kw : kwargs T),
    In c [Integrator1dC; Integrator2dC; Integrator3dC] -> make w id c p kw = Err TypeError.
Proof. intros T N. exact integ_abstract. Qed.
Print Assumptions C35_no_integrator_constructible.

(** A user class that only adds [orientation] can be instantiated. *)
Theorem C35_user_subclass :
  forall (T : Type) (N : Num T) (w : world T) id c p (kw : kwargs T),
    In c [Integrator1dC; Integrator2dC; Integrator3dC] -> c = pcls p -> good_params w p -> good_config c kw ->
    exists o, make w id (UserC c ["orientation"%string]) p kw = Ok o.
Proof.
  intros T N w id c p kw I -> Gp Gc. apply make_good; auto; destruct p; try reflexivity;
    destruct I as [I|[I|[I|[]]]]; discriminate.
Qed.
Print Assumptions C35_user_subclass.

(** * C36 Actuator names *)

(** Missing: the 2d and 3d integrators, where it is false. *)
Theorem C36_distinct_actuators_partial :
  forall (T : Type) (N : Num T) (w : world T) id c p (kw : kwargs T) o,
    make w id c p kw = Ok o -> ~ In (lib c) [SunEntityC; Integrator2dC; Integrator3dC] ->
    exists cmap k, e_cmap (o_ent o) = Some cmap /\ e_default (o_ent o) = A1 (repeat n0 k) /\ (0 < k)%nat /\ addressed cmap k.
Proof. intros T N. exact make_addressed. Qed.
Print Assumptions C36_distinct_actuators_partial.

(** Full statement: the same without the exception for the 2d and 3d integrators. It fails:
    naming two actuators of a 2d integrator drives one axis, the later name winning. *)
Theorem C36_refuted :
  exists o : obj xr,
    make euler_world 1 (UserC Integrator2dC ["orientation"%string]) (PInt2 (Fin 1) (Fin 0) 0 "Euler") [("name", CStr "p" None)]%string = Ok o /\
    forall a b : R, decode_action (N := XR Fin) euler_world (o_ent o) (ADict [("thrust_x", Fin a); ("thrust_y", Fin b)]%string) =
      Ok (A1 [Fin b; Fin (0/1)]).
Proof.
  eexists. split.
  - unfold make. cbn. unfold integrator2d_body, integ_dyn, generate_dynamics_matrices, pydiv. cbn.
    rewrite !(Req_bool_false 1 (0 / 1)) by lra. cbn. reflexivity.
  - intros. reflexivity.
Qed.
Print Assumptions C36_refuted.

(** No dict action moves a 2d or 3d integrator along any axis but x. *)
Theorem C36_other_axes_unreachable :
  forall (T : Type) (N : Num T) (w : world T) id c p (kw : kwargs T) o (w' : world T) items ctrl,
    make w id c p kw = Ok o -> lib c = Integrator2dC \/ lib c = Integrator3dC ->
    decode_action w' (o_ent o) (ADict items) = Ok ctrl ->
    forall i x, (0 < i)%nat -> anth ctrl i = Some x -> x = n0.
Proof. intros T N. exact integ_one_axis. Qed.
Print Assumptions C36_other_axes_unreachable.

(** * C37 Integrator equality *)

(** In one dimension [==] is equality of the states, hence reflexive and symmetric.
    Missing: two and three dimensions, where it is false. *)
Theorem C37_1d_partial :
  forall (r32 : R -> xr) ae (a b : obj xr) x v x' v',
    is_a Integrator1dC [x; v] a -> is_a Integrator1dC [x'; v'] b ->
    exists r, py_eq ae a b = Ok r /\ (r = true <-> x = x' /\ v = v').
Proof. exact int1_eq. Qed.
Print Assumptions C37_1d_partial.

(** Full statement: for every integrator [py_eq ae a a = Ok true] and
    [py_eq ae a b = py_eq ae b a]. Both fail. *)
Theorem C37_reflexive_refuted :
  exists c : cls, isinstance c Integrator2dC = true /\ py_new c = Ok tt /\
    forall (T : Type) (N : Num T) ae (a : obj T), o_cls a = c -> py_eq ae a a = Ok false.
Proof.
  exists (UserC Integrator2dC ["orientation"%string]). split; [reflexivity|]. split; [reflexivity|].
  intros T N ae a H. apply integ23_self. rewrite H. left; reflexivity.
Qed.
Print Assumptions C37_reflexive_refuted.

Theorem C37_symmetric_refuted :
  exists a b : obj xr,
    make euler_world 1 (UserC Integrator2dC ["orientation"%string]) (PInt2 (Fin 1) (Fin 0) 0 "Euler")
      [("name", CStr "p" None); ("x", CNum (Fin 5)); ("y", CNum (Fin 5))]%string = Ok a /\
    make euler_world 2 (UserC Integrator1dC ["orientation"%string]) (PInt1 (Fin 1) (Fin 0) 0 "Euler")
      [("name", CStr "q" None); ("x", CNum (Fin 5))]%string = Ok b /\
    forall ae, py_eq ae a b = Ok true /\ py_eq ae b a = Ok false.
Proof.
  eexists _, _. split; [|split].
  - unfold make. cbn. unfold integrator2d_body, integ_dyn, generate_dynamics_matrices, pydiv. cbn.
    rewrite !(Req_bool_false 1 (0 / 1)) by lra. cbn. reflexivity.
  - unfold make. cbn. unfold integrator1d_body, integ_dyn, generate_dynamics_matrices, pydiv. cbn.
    rewrite !(Req_bool_false 1 (0 / 1)) by lra. cbn. reflexivity.
  - intros ae. split; [|reflexivity]. unfold py_eq. cbn. rewrite !(Req_bool_true (0 / 1)) by lra. cbn.
    rewrite !(Req_bool_true 5) by lra. reflexivity.
Qed.
Print Assumptions C37_symmetric_refuted.
