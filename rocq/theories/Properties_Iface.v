(** Properties C123, C124: vectors and scalars of an entity agree; the class hierarchy. *)
From Coq Require Import String List Reals.
From Verif Require Import PyBase Num Arr BaseModel XReal Cwh Utils Rot2d SixDof Sun Integ Dubins Classes SpecClasses SpecIface IfaceLemmas.
Import ListNotations.
Local Open Scope string_scope.

(** * C123 Position and velocity vectors consist of the scalar properties *)

(** In any arithmetic, for any state vector of the class's length and any user class built on the class. *)
Theorem C123_position : forall (T : Type) (N : Num T) (o : obj T),
  In (lib (o_cls o)) [CWHSpacecraftC; CWHRotation2dSpacecraftC; SixDOFSpacecraftC; Integrator3dC; Dubins2dAircraftC; Dubins3dAircraftC] ->
  has_length (state_length (lib (o_cls o))) o -> made_of o (position o) ["x"; "y"; "z"].
Proof. exact @positions. Qed.
Print Assumptions C123_position.

Theorem C123_velocity : forall (T : Type) (N : Num T) (o : obj T),
  In (lib (o_cls o)) [CWHSpacecraftC; CWHRotation2dSpacecraftC; SixDOFSpacecraftC; Integrator3dC] ->
  has_length (state_length (lib (o_cls o))) o -> made_of o (velocity o) ["x_dot"; "y_dot"; "z_dot"].
Proof. exact @velocities. Qed.
Print Assumptions C123_velocity.

(** Rotating spacecraft: angular velocity, and the attitude of the planar one. *)
Theorem C123_rotation : forall (T : Type) (N : Num T) (o : obj T), has_length (state_length (lib (o_cls o))) o ->
  (lib (o_cls o) = CWHRotation2dSpacecraftC ->
    made_of o (rot2d_angular_velocity (o_ent o)) ["wx"; "wy"; "wz"] /\ made_of o (rot2d_quaternion (o_ent o)) ["q1"; "q2"; "q3"; "q4"]) /\
  (lib (o_cls o) = SixDOFSpacecraftC -> made_of o (sixdof_angular_velocity (o_ent o)) ["wx"; "wy"; "wz"]).
Proof. exact @spins. Qed.
Print Assumptions C123_rotation.

(** Yaw is the heading and pitch the flight path angle; what a planar class has no number for is 0. *)
Theorem C123_aliases : forall (T : Type) (N : Num T) (o : obj T), has_length (state_length (lib (o_cls o))) o ->
  In (lib (o_cls o)) [Dubins2dAircraftC; Dubins3dAircraftC] ->
  (exists x, getattr o "yaw" = Ok x /\ getattr o "heading" = Ok x) /\ (exists x, getattr o "pitch" = Ok x /\ getattr o "gamma" = Ok x).
Proof. exact @aliases. Qed.
Print Assumptions C123_aliases.

Theorem C123_zeros : forall (T : Type) (N : Num T) (o : obj T) n, In n (planar (lib (o_cls o))) -> getattr o n = Ok n0.
Proof. exact @zeros. Qed.
Print Assumptions C123_zeros.

(** Asking for a scalar property the class does not have raises AttributeError; there is no silent 0. *)
Theorem C123_unknown : forall (T : Type) (N : Num T) (o : obj T) n, In n scalar_names -> ~ implements (o_cls o) n -> getattr o n = Err AttributeError.
Proof. exact @unknown. Qed.
Print Assumptions C123_unknown.

(** Position and velocity of the integrators in one and two dimensions have no element for the missing axes. *)
Theorem C123_flat_partial : forall (T : Type) (N : Num T) (o : obj T), has_length (state_length (lib (o_cls o))) o ->
  (lib (o_cls o) = Integrator2dC -> made_of o (position o) ["x"; "y"] /\ made_of o (velocity o) ["x_dot"; "y_dot"]) /\
  (lib (o_cls o) = Integrator1dC -> exists x v, position o = Ok (A0 x) /\ getattr o "x" = Ok x /\ velocity o = Ok (A0 v) /\ getattr o "x_dot" = Ok v).
Proof. exact @flat_vectors. Qed.
Print Assumptions C123_flat_partial.

(** BaseEntity documents [position] as the 3d position vector. A two-dimensional integrator returns two numbers. *)
Theorem C123_three_numbers_refuted : forall e : entity xr, exists o : obj xr,
  o = shown (UserC Integrator2dC ["orientation"]) e [5; 6; 7; 8]%R /\ position (N := XR Fin) o = Ok (A1 [Fin 5; Fin 6]) /\
  ~ made_of (N := XR Fin) o (position (N := XR Fin) o) ["x"; "y"; "z"].
Proof. exact (fun e => ex_intro _ _ (conj eq_refl (integ2_short e))). Qed.
Print Assumptions C123_three_numbers_refuted.

(** The quaternion of a SixDOFSpacecraft is made of q1 .. q4 exactly when those have norm 1: scipy normalises it. *)
Theorem C123_quaternion_partial : forall (o : obj xr) (a b c d x y z vx vy vz wx wy wz : R),
  is_a SixDOFSpacecraftC [x; y; z; a; b; c; d; vx; vy; vz; wx; wy; wz] o -> (~ (a = 0 /\ b = 0 /\ c = 0 /\ d = 0))%R ->
  (made_of (N := XR Fin) o (sixdof_quaternion (N := XR Fin) (o_ent o)) ["q1"; "q2"; "q3"; "q4"] <-> (a * a + b * b + c * c + d * d = 1)%R).
Proof. exact six_quaternion. Qed.
Print Assumptions C123_quaternion_partial.

Theorem C123_quaternion_refuted : forall e : entity xr, exists o : obj xr,
  o = shown SixDOFSpacecraftC e [0; 0; 0; 0; 0; 0; 2; 0; 0; 0; 0; 0; 0]%R /\
  ~ made_of (N := XR Fin) o (sixdof_quaternion (N := XR Fin) (o_ent o)) ["q1"; "q2"; "q3"; "q4"].
Proof. exact (fun e => ex_intro _ _ (conj eq_refl (six_unnormalised e))). Qed.
Print Assumptions C123_quaternion_refuted.

(** A planar spacecraft at (1, 2) moving with (4, 5), an aircraft at (1, 2, 3) with heading 4. *)
Example C123_example : forall e : entity xr,
  let s := shown CWHRotation2dSpacecraftC e [1; 2; 3; 4; 5; 6]%R in let a := shown Dubins3dAircraftC e [1; 2; 3; 4; 5; 6; 7]%R in
  position (N := XR Fin) s = Ok (A1 [Fin 1; Fin 2; @n0 xr (XR Fin)]) /\ velocity (N := XR Fin) s = Ok (A1 [Fin 4; Fin 5; @n0 xr (XR Fin)]) /\
  getattr (N := XR Fin) s "wz" = Ok (Fin 6) /\ position (N := XR Fin) a = Ok (A1 [Fin 1; Fin 2; Fin 3]) /\
  getattr (N := XR Fin) a "yaw" = Ok (Fin 4) /\ getattr (N := XR Fin) a "pitch" = Ok (Fin 5) /\
  getattr (N := XR Fin) a "theta" = Err AttributeError.
Proof. repeat split. Qed.

(** * C124 isinstance follows the class statements, and what can be created implements its interface *)

Theorem C124_isinstance : forall c d : cls, isinstance c d = true <-> subclass c d.
Proof. exact subclass_iff. Qed.
Print Assumptions C124_isinstance.

(** A class can be instantiated exactly when every member that one of its bases declares abstract has an implementation. *)
Theorem C124_interface : forall c : cls, py_new c = Ok tt <-> forall n, demands c n -> implements c n.
Proof. exact new_complete. Qed.
Print Assumptions C124_interface.

(** A user class can be instantiated exactly when it defines every member its base leaves abstract. *)
Theorem C124_user_class : forall (b : cls) (defs : list string),
  py_new (UserC b defs) = Ok tt <-> forall n, demands b n -> implements b n \/ In n defs.
Proof. exact new_user. Qed.
Print Assumptions C124_user_class.

(** Planar and six-degrees-of-freedom spacecraft are rotation entities, the point-mass one is not; the base classes cannot
    be instantiated; an integrator needs an orientation; a user class of a spacecraft needs nothing. *)
Example C124_example :
  isinstance CWHRotation2dSpacecraftC BaseRotationEntityC = true /\ isinstance SixDOFSpacecraftC BaseRotationEntityC = true /\
  isinstance CWHSpacecraftC BaseRotationEntityC = false /\ isinstance (UserC Dubins2dAircraftC []) BaseEntityC = true /\
  map py_new [CWHSpacecraftC; CWHRotation2dSpacecraftC; SixDOFSpacecraftC; SunEntityC; Dubins2dAircraftC; Dubins3dAircraftC; UserC SixDOFSpacecraftC []] = repeat (Ok tt) 7 /\
  map py_new [BaseEntityC; BaseRotationEntityC; BaseIntegratorC; BaseDubinsAircraftC] = repeat (Err TypeError) 4 /\
  abstract_members Integrator1dC = ["orientation"] /\ demands SixDOFSpacecraftC "quaternion".
Proof. repeat split. exists BaseRotationEntityC. split; [apply subclass_iff; reflexivity|cbn; auto 10]. Qed.
