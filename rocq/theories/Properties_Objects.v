(** Properties C97-C99: several entities, hashing, integration settings. *)
From Coq Require Import String List Bool Arith ZArith.
From Flocq Require Import IEEE754.BinarySingleNaN.
From Verif Require Import PyBase Num Arr BaseModel Cwh Utils Rot2d SixDof Integ Dubins Classes Hash Float64 XTac Witness
  Heap SpecHeap SpecFleet FleetLemmas SpecSettings ObjectLemmas.
Import List ListNotations.
Local Open Scope string_scope.
Local Hint Extern 0 (Num f64) => exact (F64 lm0) : typeclass_instances.

(** * C97 Several entities *)

(** Programs that create any number of entities, use them in any order and pass arrays handed
    out by one to another behave as if every entity were a value of its own. *)
Theorem C97_fleet :
  forall T (N : Num T) (w : world T) H0 (prog : list (fop T)),
    let '(H, Es, env, outs) := hfleet_all w H0 [] [] prog in
    let '(es, store, vouts) := vfleet_all w [] [] prog in
    map (view H) Es = es /\ map (hread H) env = store /\ outs = vouts.
Proof. exact (fun T N => @fleet_semantics T N). Qed.
Print Assumptions C97_fleet.

(** In particular nothing done to entity [j] is visible in entity [i]. *)
Theorem C97_independent :
  forall T (N : Num T) (w : world T) H0 (prog : list (fop T)) i j o, i <> j ->
    let '(H, Es, env, _) := hfleet_all w H0 [] [] prog in
    let '(H', Es', _, _) := hfleet w H Es env (FOp j o) in
    nth_error (map (view H') Es') i = nth_error (map (view H) Es) i.
Proof. exact (fun T N => @fleet_independent T N). Qed.
Print Assumptions C97_independent.

(** The state of one spacecraft is read, given to a second one, and changed by the caller; the
    second one is stepped. The first one still is where it was. *)
Example C97_example :
  let e := cwhF "Euler" (fl 100 1) (fl 1 1) in
  let make := FMake (e_dyn e) (e_default e) (e_cmin e) (e_cmax e) (e_cmap e) (e_state e) in
  let '(H, Es, env, outs) := hfleet_all (N := F64 lm0) (euler_world (N := F64 lm0)) [] [] []
    [make; make; FOp 0 CGet; FOp 1 (CSet 0); FOp 1 (CMut 0 0 (fl 7 1)); FOp 1 (CStep (fl 1 1) CNone)] in
  map (fun E => option_map B2SF (match e_state (view H E) with A1 (x :: _) => Some x | _ => None end)) Es
    = [Some (B2SF (fl 100 1)); Some (B2SF (fl 101 1))] /\
  nth_error outs 5 = Some (OStepped false (Ok tt)).
Proof. vm_compute. split; reflexivity. Qed.

(** * C98 Hashing *)

(** Full statement: [forall o : obj T, is_ok (py_hash o) = true]. False: every vehicle of the
    library compares by value and has no hash. *)
Theorem C98_refuted :
  exists (o : obj f64), construct 1 CWHSpacecraftC (Ok (cwhF "RK45" (fl 100 1) (fl 1 1))) = Ok o /\ py_hash o = Err TypeError.
Proof. eexists. split; [reflexivity|]. reflexivity. Qed.
Print Assumptions C98_refuted.

(** Exactly the classes that compare by value have none; what a user adds to a class other than
    [__eq__] and [__hash__] does not matter.
    Missing: that vehicles are hashable, which is false. *)
Theorem C98_unhashable_partial :
  forall T (o : obj T), ~ In "__hash__" (added (o_cls o)) -> ~ In "__eq__" (added (o_cls o)) ->
  (compares_by_value (o_cls o) -> py_hash o = Err TypeError) /\
  (~ compares_by_value (o_cls o) -> py_hash o = Ok (o_id o)).
Proof. exact (fun T o A B => conj (value_classes_unhashable T o A B) (identity_classes_hash T o A B)). Qed.
Print Assumptions C98_unhashable_partial.

(** A user's subclass of Integrator1d, and a user's entity without equality. *)
Example C98_example :
  let o c := {| o_id := 5; o_cls := c; o_ent := cwhF "RK45" (fl 100 1) (fl 1 1) |} in
  py_hash (o (UserC Integrator1dC ["orientation"])) = Err TypeError /\
  py_hash (o (UserC BaseEntityC ["position"])) = Ok 5.
Proof. split; reflexivity. Qed.

(** * C99 Integration settings *)

(** Full statement: every entity that a constructor returns can be stepped in some world. False:
    unknown methods, samples with the Euler method, and jax integration without jax are all
    accepted at construction. *)
Theorem C99_refuted :
  exists (e1 e2 e3 : entity f64),
    let z := fl 0 1 in
    cwh_spacecraft (N := F64 lm0) M_DEFAULT N_DEFAULT 0 "RK4" z z z z z z = Ok e1 /\
    cwh_spacecraft (N := F64 lm0) M_DEFAULT N_DEFAULT 5 "Euler" z z z z z z = Ok e2 /\
    cwh_spacecraft (N := F64 lm0) M_DEFAULT N_DEFAULT 0 "RK45_JAX" z z z z z z = Ok e3 /\
    forall w h a, o_res (entity_step (N := F64 lm0) w e1 h a) <> Ok tt /\
      o_res (entity_step (N := F64 lm0) w e2 h a) <> Ok tt /\ o_res (entity_step (N := F64 lm0) w e3 h a) <> Ok tt.
Proof. exact settings_refuted. Qed.
Print Assumptions C99_refuted.

(** Outside the documented settings no step ever succeeds or changes anything.
    Missing: that the constructor rejects them, which is false. *)
Theorem C99_undocumented_partial :
  forall T (N : Num T) (w : world T) e h a,
    ~ documented_settings (d_method (e_dyn e)) (d_samples (e_dyn e)) (d_use_jax (e_dyn e)) ->
    o_res (entity_step w e h a) <> Ok tt /\ o_entity (entity_step w e h a) = e.
Proof. exact (fun T N => @unusable_never T N). Qed.
Print Assumptions C99_undocumented_partial.

(** The documented method "RK45_JAX" works for none of the vehicles whose constructors lack the
    option use_jax: CWHSpacecraft, SixDOFSpacecraft, the aircraft, and the integrators.
    Missing: that the constructor rejects it, which is false. *)
Theorem C99_jax_partial :
  forall T (N : Num T),
  (forall m n k x y z vx vy vz e, cwh_spacecraft m n k "RK45_JAX" x y z vx vy vz = Ok e ->
     forall (w : world T) h a, o_res (entity_step w e h a) <> Ok tt) /\
  (forall m I al vl iw aw vw tl body n k x y z q1 q2 q3 q4 vx vy vz wx wy wz e,
     sixdof_spacecraft m I al vl iw aw vw tl body n k "RK45_JAX" x y z q1 q2 q3 q4 vx vy vz wx wy wz = Ok e ->
     forall (w : world T) h a, o_res (entity_step w e h a) <> Ok tt) /\
  (forall k v0 v1 h0 h1 a0 a1 x y hd v (w : world T) h a,
     o_res (entity_step w (dubins2d_aircraft k "RK45_JAX" v0 v1 h0 h1 a0 a1 x y hd v) h a) <> Ok tt) /\
  (forall k v0 v1 g0 g1 r0 r1 h0 h1 rr0 rr1 a0 a1 x y z hd g r v (w : world T) h a,
     o_res (entity_step w (dubins3d_aircraft k "RK45_JAX" v0 v1 g0 g1 r0 r1 h0 h1 rr0 rr1 a0 a1 x y z hd g r v) h a) <> Ok tt) /\
  (forall mo m c k d, integ_dyn m c mo k "RK45_JAX" = Ok d ->
     forall (w : world T) cd c0 c1 cm s h a, o_res (entity_step w (mk_entity d cd c0 c1 cm s) h a) <> Ok tt).
Proof. exact jax_never. Qed.
Print Assumptions C99_jax_partial.

(** The two documented settings at work. *)
Example C99_example :
  let w := euler_world (N := F64 lm0) in
  o_res (entity_step (N := F64 lm0) w (cwhF "RK45" (fl 100 1) (fl 1 1)) (fl 1 1) ANone) = Ok tt /\
  o_res (entity_step (N := F64 lm0) w (cwhF "Euler" (fl 100 1) (fl 1 1)) (fl 1 1) ANone) = Ok tt.
Proof. vm_compute. split; reflexivity. Qed.
