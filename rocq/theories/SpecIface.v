(** Vocabulary of C123 and C124: vectors against scalars, the class statements. Nothing here is used by the model. *)
From Coq Require Import String List Relations.
From Verif Require Import PyBase Num Arr BaseModel Classes.
Import ListNotations.
Local Open Scope string_scope.

(** The vector returned consists of the values of the named scalar properties. *)
Definition made_of {T} {N : Num T} (o : obj T) (v : res (arr T)) (names : list string) : Prop :=
  exists l, v = Ok (A1 l) /\ Forall2 (fun n x => getattr o n = Ok x) names l.
Definition has_length {T} (n : nat) (o : obj T) : Prop := exists l, e_state (o_ent o) = A1 l /\ length l = n.
(** Number of elements of the state vector, from the constructors. *)
Definition state_length (c : cls) : nat :=
  match c with
  | CWHSpacecraftC | CWHRotation2dSpacecraftC | Integrator3dC => 6
  | SixDOFSpacecraftC => 13
  | Dubins2dAircraftC | Integrator2dC => 4
  | Dubins3dAircraftC => 7
  | Integrator1dC => 2
  | _ => 1
  end.

(** Scalar properties without a number in the state of the class. *)
Definition planar (c : cls) : list string :=
  match c with
  | CWHRotation2dSpacecraftC => ["z"; "z_dot"; "wx"; "wy"]
  | Integrator1dC => ["y"; "z"; "y_dot"; "z_dot"]
  | Integrator2dC => ["z"; "z_dot"]
  | Dubins2dAircraftC => ["z"; "gamma"; "roll"]
  | _ => []
  end.

(** The names of the scalar properties of all classes. No entity has an instance attribute of one of these names. *)
Definition scalar_names : list string :=
  ["x"; "y"; "z"; "x_dot"; "y_dot"; "z_dot"; "theta"; "q1"; "q2"; "q3"; "q4"; "wx"; "wy"; "wz"; "v"; "heading"; "gamma"; "roll"; "yaw"; "pitch"].

(** The class statements: base_models.py 285, cwh/point_model.py 68, cwh/rotational_model.py 74, cwh/sixdof_model.py 99,
    cwh/sun_model.py 50, integrators.py 50, 89, 178, 272, dubins.py 63, 235, 438; a user class names its base. *)
Inductive derives : cls -> cls -> Prop :=
| D_rotation : derives BaseRotationEntityC BaseEntityC
| D_cwh : derives CWHSpacecraftC BaseEntityC
| D_rot2d : derives CWHRotation2dSpacecraftC BaseRotationEntityC
| D_sixdof : derives SixDOFSpacecraftC BaseRotationEntityC
| D_sun : derives SunEntityC BaseEntityC
| D_integ : derives BaseIntegratorC BaseEntityC
| D_integ1 : derives Integrator1dC BaseIntegratorC
| D_integ2 : derives Integrator2dC BaseIntegratorC
| D_integ3 : derives Integrator3dC BaseIntegratorC
| D_dubins : derives BaseDubinsAircraftC BaseEntityC
| D_dubins2 : derives Dubins2dAircraftC BaseDubinsAircraftC
| D_dubins3 : derives Dubins3dAircraftC BaseDubinsAircraftC
| D_user b defs : derives (UserC b defs) b.
Definition subclass : cls -> cls -> Prop := clos_refl_trans_1n cls derives.
(** Some class between [c] and its roots implements the member. *)
Definition implements (c : cls) (n : string) : Prop := exists b, subclass c b /\ In n (own_concrete b).
(** Some class between [c] and its roots demands the member. *)
Definition demands (c : cls) (n : string) : Prop := exists b, subclass c b /\ In n (own_abstract b).
