(** Entity classes and objects: the class hierarchy with abstract members, [isinstance],
    object creation, equality, relative position and velocity, and the scalar attributes.
    Sources: base_models.py, cwh/*.py, dubins.py, integrators.py. *)
From Coq Require Import String List Bool Arith ZArith.
From Verif Require Import PyBase Num Arr BaseModel Cwh Utils Rot2d SixDof Sun Integ Dubins.
Import ListNotations.

(** The entity classes of the library, and classes a user derives from one of them by
    adding members (a user class is assumed not to override members the library defines;
    multiple inheritance is not modelled). *)
Inductive cls : Type :=
| BaseEntityC | BaseRotationEntityC
| CWHSpacecraftC | CWHRotation2dSpacecraftC | SixDOFSpacecraftC | SunEntityC
| BaseIntegratorC | Integrator1dC | Integrator2dC | Integrator3dC
| BaseDubinsAircraftC | Dubins2dAircraftC | Dubins3dAircraftC
| UserC (base : cls) (defs : list string).

Local Open Scope string_scope.

(** Members declared with [abc.abstractmethod] in the class body itself: base_models.py
    143-276 and 314-380, integrators.py 76-86, dubins.py 109-195. *)
Definition own_abstract (c : cls) : list string :=
  match c with
  | BaseEntityC => ["_build_state"; "x"; "y"; "z"; "position"; "orientation"; "velocity"]
  | BaseRotationEntityC => ["q1"; "q2"; "q3"; "q4"; "quaternion"; "wx"; "wy"; "wz"; "angular_velocity"]
  | BaseIntegratorC => ["position"; "velocity"]
  | BaseDubinsAircraftC => ["v"; "roll"; "heading"; "gamma"; "acceleration"]
  | _ => []
  end.

(** Concrete members defined in the class body itself: base_models.py 124-386,
    cwh/point_model.py 104-246, cwh/rotational_model.py 127-362, cwh/sixdof_model.py 158-408,
    cwh/sun_model.py 72-131, integrators.py 55-370, dubins.py 70-227, 281-395, 513-645. *)
Definition own_concrete (c : cls) : list string :=
  match c with
  | BaseEntityC => ["__init__"; "_get_config_validator"; "step"; "state"; "x_with_units"; "y_with_units"; "z_with_units";
                    "position_with_units"; "velocity_with_units"]
  | BaseRotationEntityC => ["__init__"; "wx_with_unit"; "wy_with_unit"; "wz_with_unit"; "angular_velocity_with_units"]
  | CWHSpacecraftC => ["__init__"; "_get_config_validator"; "__eq__"; "_build_state"; "x"; "y"; "z"; "x_dot"; "x_dot_with_units";
                       "y_dot"; "y_dot_with_units"; "z_dot"; "z_dot_with_units"; "position"; "orientation"; "velocity";
                       "set_sim"; "entity_relative_position"; "entity_relative_velocity"]
  | CWHRotation2dSpacecraftC =>
      ["__init__"; "_get_config_validator"; "__eq__"; "_build_state"; "x"; "y"; "z"; "q1"; "q2"; "q3"; "q4"; "theta";
       "x_dot"; "x_dot_with_units"; "y_dot"; "y_dot_with_units"; "z_dot"; "z_dot_with_units"; "wx"; "wy"; "wz";
       "position"; "orientation"; "quaternion"; "velocity"; "angular_velocity"; "set_sim";
       "entity_relative_position"; "entity_relative_velocity"]
  | SixDOFSpacecraftC =>
      ["__init__"; "_get_config_validator"; "__eq__"; "register_lead"; "_build_state"; "x"; "y"; "z"; "q1"; "q2"; "q3"; "q4";
       "x_dot"; "x_dot_with_units"; "y_dot"; "y_dot_with_units"; "z_dot"; "z_dot_with_units"; "wx"; "wy"; "wz";
       "position"; "orientation"; "quaternion"; "velocity"; "angular_velocity"; "set_sim";
       "entity_relative_position"; "entity_relative_velocity"]
  | SunEntityC => ["__init__"; "_get_config_validator"; "__eq__"; "_build_state"; "theta"; "x"; "y"; "z"; "position";
                   "orientation"; "velocity"]
  | BaseIntegratorC => ["__init__"; "_get_config_validator"; "__eq__"]
  | Integrator1dC | Integrator2dC | Integrator3dC =>
      ["__init__"; "__eq__"; "_build_state"; "x"; "y"; "z"; "x_dot"; "y_dot"; "z_dot"; "position"; "velocity"]
  | BaseDubinsAircraftC => ["__init__"; "_get_config_validator"; "__eq__"; "register_partner"; "v_with_units"; "yaw";
                            "yaw_with_units"; "pitch"; "pitch_with_units"; "roll_with_units"; "heading_with_units";
                            "gamma_with_units"; "acceleration_with_units"; "velocity"; "orientation"]
  | Dubins2dAircraftC => ["__init__"; "__eq__"; "_build_state"; "x"; "y"; "z"; "heading"; "v"; "position"; "gamma"; "roll";
                          "acceleration"]
  | Dubins3dAircraftC => ["__init__"; "__eq__"; "_get_config_validator"; "_build_state"; "x"; "y"; "z"; "heading"; "gamma";
                          "roll"; "v"; "position"; "acceleration"]
  | UserC _ defs => defs
  end.

(** Method resolution order (single inheritance). *)
Fixpoint mro (c : cls) : list cls :=
  match c with
  | BaseEntityC => [c]
  | BaseRotationEntityC | CWHSpacecraftC | SunEntityC | BaseIntegratorC | BaseDubinsAircraftC => [c; BaseEntityC]
  | CWHRotation2dSpacecraftC | SixDOFSpacecraftC => [c; BaseRotationEntityC; BaseEntityC]
  | Integrator1dC | Integrator2dC | Integrator3dC => [c; BaseIntegratorC; BaseEntityC]
  | Dubins2dAircraftC | Dubins3dAircraftC => [c; BaseDubinsAircraftC; BaseEntityC]
  | UserC b _ => c :: mro b
  end.

Definition mem (n : string) (l : list string) : bool := existsb (String.eqb n) l.

(** Attribute lookup on the class: the first class of the MRO that has the name;
    [Some true] when the member found is abstract. *)
Fixpoint lookup (n : string) (l : list cls) : option bool :=
  match l with
  | [] => None
  | c :: l' => if mem n (own_concrete c) then Some false
               else if mem n (own_abstract c) then Some true else lookup n l'
  end.

(** [cls.__abstractmethods__]. *)
Definition abstract_members (c : cls) : list string :=
  filter (fun n => match lookup n (mro c) with Some true => true | _ => false end)
    (flat_map own_abstract (mro c)).

(** [object.__new__] refuses to create an instance of a class with abstract members. *)
Definition py_new (c : cls) : res unit :=
  match abstract_members c with [] => Ok tt | _ => Err TypeError end.

(** Class identity (user classes are identified by base and members). *)
Fixpoint cls_eqb (a b : cls) : bool :=
  match a, b with
  | UserC x l, UserC y m => cls_eqb x y && (if list_eq_dec string_dec l m then true else false)
  | BaseEntityC, BaseEntityC | BaseRotationEntityC, BaseRotationEntityC
  | CWHSpacecraftC, CWHSpacecraftC | CWHRotation2dSpacecraftC, CWHRotation2dSpacecraftC
  | SixDOFSpacecraftC, SixDOFSpacecraftC | SunEntityC, SunEntityC
  | BaseIntegratorC, BaseIntegratorC | Integrator1dC, Integrator1dC | Integrator2dC, Integrator2dC
  | Integrator3dC, Integrator3dC | BaseDubinsAircraftC, BaseDubinsAircraftC
  | Dubins2dAircraftC, Dubins2dAircraftC | Dubins3dAircraftC, Dubins3dAircraftC => true
  | _, _ => false
  end.
Definition isinstance (c d : cls) : bool := existsb (cls_eqb d) (mro c).

(** The library class whose members an instance of [c] runs. *)
Fixpoint lib (c : cls) : cls := match c with UserC b _ => lib b | _ => c end.

Section Objects.
  Context {T : Type} {N : Num T}.
  Local Notation z0 := (@n0 T N).

  (** [Rotation.as_euler("ZYX")] of scipy, as a function of the quaternion; not modelled
      further. *)
  Variable as_euler : T * T * T * T -> list T.

  (** An object: identity, class, entity state. *)
  Record obj : Type := { o_id : nat; o_cls : cls; o_ent : entity T }.

  (** [C(...)]: creation check, then the constructor. *)
  Definition construct (id : nat) (c : cls) (init : res (entity T)) : res obj :=
    _ <- py_new c ;; e <- init ;; Ok {| o_id := id; o_cls := c; o_ent := e |}.

  (** Integrator positions and velocities (integrators.py 167-175, 261-269, 362-370). *)
  Definition integ1_position (e : entity T) : res (arr T) := x <- aidx (e_state e) 0 ;; Ok (A0 x).
  Definition integ1_velocity (e : entity T) : res (arr T) := x <- aidx (e_state e) 1 ;; Ok (A0 x).
  Definition integ2_position (e : entity T) : res (arr T) := aslice (e_state e) 0 2.
  Definition integ2_velocity (e : entity T) : res (arr T) := aslice (e_state e) 2 4.
  Definition integ3_position (e : entity T) : res (arr T) := aslice (e_state e) 0 3.
  Definition integ3_velocity (e : entity T) : res (arr T) := aslice (e_state e) 3 6.

  (** [obj.position]; SunEntity (sun_model.py 116-119) and the abstract bodies
      (base_models.py 248-252, integrators.py 76-80) raise NotImplementedError. *)
  Definition position (o : obj) : res (arr T) :=
    match lib (o_cls o) with
    | CWHSpacecraftC => cwh_position (o_ent o)
    | CWHRotation2dSpacecraftC => rot2d_position (o_ent o)
    | SixDOFSpacecraftC => sixdof_position (o_ent o)
    | Integrator1dC => integ1_position (o_ent o)
    | Integrator2dC => integ2_position (o_ent o)
    | Integrator3dC => integ3_position (o_ent o)
    | Dubins2dAircraftC => d2_position (o_ent o)
    | Dubins3dAircraftC => d3_position (o_ent o)
    | _ => Err NotImplementedError
    end.

  (** [obj.velocity]. *)
  Definition velocity (o : obj) : res (arr T) :=
    match lib (o_cls o) with
    | CWHSpacecraftC => cwh_velocity (o_ent o)
    | CWHRotation2dSpacecraftC => rot2d_velocity (o_ent o)
    | SixDOFSpacecraftC => sixdof_velocity (o_ent o)
    | Integrator1dC => integ1_velocity (o_ent o)
    | Integrator2dC => integ2_velocity (o_ent o)
    | Integrator3dC => integ3_velocity (o_ent o)
    | Dubins2dAircraftC => d2_velocity (o_ent o)
    | Dubins3dAircraftC => d3_velocity (o_ent o)
    | _ => Err NotImplementedError
    end.

  (** [(a == b).all()]; numpy 1.26 raises on incompatible shapes. *)
  Definition all_true (a : arr bool) : bool :=
    match a with A0 b => b | A1 l => forallb (fun b => b) l end.
  Definition all_eq (a b : res (arr T)) : res bool :=
    x <- a ;; y <- b ;; c <- bmap2 neqb x y ;; Ok (all_true c).
  (** [a == b] of scalars. *)
  Definition num_eq (a b : res T) : res bool := x <- a ;; y <- b ;; Ok (neqb x y).
  (** [eq and e] evaluates [e] only when [eq] holds. *)
  Fixpoint and_then (l : list (res bool)) : res bool :=
    match l with
    | [] => Ok true
    | c :: l' => b <- c ;; if b then and_then l' else Ok false
    end.

  Definition euler_of (q : res (T * T * T * T)) : res (arr T) := x <- q ;; Ok (A1 (as_euler x)).

  (** CWHSpacecraft.orientation (point_model.py 186-198): always the identity, which
      from_quat normalises. *)
  Definition cwh_orientation (_ : entity T) : res (T * T * T * T) := from_quat z0 z0 z0 n1.

  (** [type(a).__eq__(a, b)]: point_model.py 121-127, rotational_model.py 186-193,
      sixdof_model.py 223-230, sun_model.py 85-88, integrators.py 69-74, 125-130, 219-224,
      318-323, dubins.py 85-92, 318-328, 557-568. Classes without [__eq__] inherit identity
      comparison (NotImplemented from both sides). *)
  Definition eq_method (a b : obj) : res bool :=
    let pv := [all_eq (velocity a) (velocity b); all_eq (position a) (position b)] in
    let ea := o_ent a in let eb := o_ent b in
    match lib (o_cls a) with
    | CWHSpacecraftC =>
        if isinstance (o_cls b) CWHSpacecraftC then
          and_then (pv ++ [all_eq (euler_of (cwh_orientation ea)) (euler_of (cwh_orientation eb))])
        else Ok false
    | CWHRotation2dSpacecraftC =>
        if isinstance (o_cls b) CWHRotation2dSpacecraftC then
          and_then (pv ++ [all_eq (rot2d_quaternion ea) (rot2d_quaternion eb);
                           all_eq (rot2d_angular_velocity ea) (rot2d_angular_velocity eb)])
        else Ok false
    | SixDOFSpacecraftC =>
        if isinstance (o_cls b) SixDOFSpacecraftC then
          and_then (pv ++ [all_eq (sixdof_quaternion ea) (sixdof_quaternion eb);
                           all_eq (sixdof_angular_velocity ea) (sixdof_angular_velocity eb)])
        else Ok false
    | SunEntityC => Ok (isinstance (o_cls b) SunEntityC)
    | BaseIntegratorC => if isinstance (o_cls b) BaseIntegratorC then and_then pv else Ok false
    | Integrator1dC | Integrator2dC | Integrator3dC =>
        if isinstance (o_cls b) Integrator1dC then and_then pv else Ok false
    | BaseDubinsAircraftC =>
        (* self.velocity reads the abstract self.v *)
        if isinstance (o_cls b) BaseDubinsAircraftC then Err NotImplementedError else Ok false
    | Dubins2dAircraftC =>
        if isinstance (o_cls b) Dubins2dAircraftC then
          and_then (pv ++ [all_eq (d2_acceleration ea) (d2_acceleration eb);
                           all_eq (euler_of (d2_orientation ea)) (euler_of (d2_orientation eb));
                           num_eq (d2_heading ea) (d2_heading eb);
                           num_eq (Ok z0) (Ok z0); num_eq (Ok z0) (Ok z0)])
        else Ok false
    | Dubins3dAircraftC =>
        if isinstance (o_cls b) Dubins3dAircraftC then
          and_then (pv ++ [all_eq (d3_acceleration ea) (d3_acceleration eb);
                           all_eq (euler_of (d3_orientation ea)) (euler_of (d3_orientation eb));
                           num_eq (d3_heading ea) (d3_heading eb);
                           num_eq (d3_roll ea) (d3_roll eb);
                           num_eq (d3_gamma ea) (d3_gamma eb);
                           num_eq (d3_v ea) (d3_v eb)])
        else Ok false
    | _ => Ok (Nat.eqb (o_id a) (o_id b))
    end.

  (** [a == b]: the reflected method goes first when the right operand's class is a proper
      subclass of the left operand's class. *)
  Definition py_eq (a b : obj) : res bool :=
    if negb (cls_eqb (o_cls a) (o_cls b)) && isinstance (o_cls b) (o_cls a)
    then eq_method b a else eq_method a b.

  (** The simulator reference [_sim] with its [sim_entities] dict. *)
  Definition sim : Type := option (list (string * obj)).

  Definition sim_get (s : sim) (name : string) : res obj :=
    match s with
    | None => Err AttributeError
    | Some d => match dict_get name d with Some o => Ok o | None => Err KeyError end
    end.

  (** entity_relative_position / entity_relative_velocity (point_model.py 215-245,
      rotational_model.py 331-361, sixdof_model.py 378-408); other classes lack them. *)
  Definition has_relative (c : cls) : bool :=
    match lib c with CWHSpacecraftC | CWHRotation2dSpacecraftC | SixDOFSpacecraftC => true | _ => false end.
  Definition entity_relative_position (s : sim) (o : obj) (name : string) : res (arr T) :=
    if has_relative (o_cls o) then
      other <- sim_get s name ;; p <- position other ;; q <- position o ;; bmap2 nsub p q
    else Err AttributeError.
  Definition entity_relative_velocity (s : sim) (o : obj) (name : string) : res (arr T) :=
    if has_relative (o_cls o) then
      other <- sim_get s name ;; p <- velocity other ;; q <- velocity o ;; bmap2 nsub p q
    else Err AttributeError.

  (** Scalar properties: an element of the state, the constant 0, an element of the
      quaternion, or a body that raises. *)
  Inductive accessor : Type := Elem (i : nat) | Zero | Quat (i : nat) | Raises.

  Definition accessors (c : cls) : list (string * accessor) :=
    match lib c with
    (* point_model.py 136-174 *)
    | CWHSpacecraftC => [("x", Elem 0); ("y", Elem 1); ("z", Elem 2); ("x_dot", Elem 3); ("y_dot", Elem 4); ("z_dot", Elem 5)]
    (* rotational_model.py 203-283 *)
    | CWHRotation2dSpacecraftC =>
        [("x", Elem 0); ("y", Elem 1); ("z", Zero); ("q1", Quat 0); ("q2", Quat 1); ("q3", Quat 2); ("q4", Quat 3);
         ("theta", Elem 2); ("x_dot", Elem 3); ("y_dot", Elem 4); ("z_dot", Zero); ("wx", Zero); ("wy", Zero); ("wz", Elem 5)]
    (* sixdof_model.py 257-329 *)
    | SixDOFSpacecraftC =>
        [("x", Elem 0); ("y", Elem 1); ("z", Elem 2); ("q1", Elem 3); ("q2", Elem 4); ("q3", Elem 5); ("q4", Elem 6);
         ("x_dot", Elem 7); ("y_dot", Elem 8); ("z_dot", Elem 9); ("wx", Elem 10); ("wy", Elem 11); ("wz", Elem 12)]
    (* sun_model.py 96-114 *)
    | SunEntityC => [("theta", Elem 0); ("x", Raises); ("y", Raises); ("z", Raises)]
    (* integrators.py 137-165, 231-259, 332-360 *)
    | Integrator1dC => [("x", Elem 0); ("y", Zero); ("z", Zero); ("x_dot", Elem 1); ("y_dot", Zero); ("z_dot", Zero)]
    | Integrator2dC => [("x", Elem 0); ("y", Elem 1); ("z", Zero); ("x_dot", Elem 2); ("y_dot", Elem 3); ("z_dot", Zero)]
    | Integrator3dC => [("x", Elem 0); ("y", Elem 1); ("z", Elem 2); ("x_dot", Elem 3); ("y_dot", Elem 4); ("z_dot", Elem 5)]
    (* dubins.py 120-142, 333-389 *)
    | Dubins2dAircraftC =>
        [("x", Elem 0); ("y", Elem 1); ("z", Zero); ("heading", Elem 2); ("v", Elem 3); ("gamma", Zero); ("roll", Zero);
         ("yaw", Elem 2); ("pitch", Zero)]
    (* dubins.py 120-142, 580-634 *)
    | Dubins3dAircraftC =>
        [("x", Elem 0); ("y", Elem 1); ("z", Elem 2); ("heading", Elem 3); ("gamma", Elem 4); ("roll", Elem 5); ("v", Elem 6);
         ("yaw", Elem 3); ("pitch", Elem 4)]
    | _ => []
    end.

  Definition read_accessor (o : obj) (a : accessor) : res T :=
    match a with
    | Elem i => aidx (e_state (o_ent o)) i
    | Zero => Ok z0
    | Quat i => q <- rot2d_quaternion (o_ent o) ;; aidx q i
    | Raises => Err NotImplementedError
    end.

  (** [obj.name] for the scalar properties. *)
  Definition getattr (o : obj) (name : string) : res T :=
    match dict_get name (accessors (o_cls o)) with
    | Some a => read_accessor o a
    | None => Err AttributeError
    end.

  (** Property setters exist in the Dubins classes only (dubins.py 337-367, 584-634); the
      other properties are read-only (AttributeError). *)
  Definition settable (c : cls) : list (string * nat) :=
    match lib c with
    | Dubins2dAircraftC => [("x", 0); ("y", 1); ("heading", 2); ("v", 3)]
    | Dubins3dAircraftC => [("x", 0); ("y", 1); ("z", 2); ("heading", 3); ("gamma", 4); ("roll", 5); ("v", 6)]
    | _ => []
    end.
  Definition setattr (o : obj) (name : string) (f32 : bool) (v : T) : res obj :=
    match dict_get name (settable (o_cls o)) with
    | Some i => e <- set_elem (o_ent o) i f32 v ;; Ok {| o_id := o_id o; o_cls := o_cls o; o_ent := e |}
    | None => Err AttributeError
    end.
End Objects.
Arguments obj T : clear implicits.
Arguments sim T : clear implicits.
