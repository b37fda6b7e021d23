(** Configuration: units, the pydantic validators of the entity classes, and complete
    constructors from keyword arguments. Sources: base_models.py 43-100, 124-137 and the
    validators of cwh/*.py, dubins.py, integrators.py.
    pint and pydantic are modelled by their documented behaviour; see DESIGN.md. *)
From Coq Require Import String List Bool Arith ZArith.
From Verif Require Import PyBase Num Arr BaseModel Cwh Utils Rot2d SixDof Sun Integ Dubins Classes.
Import ListNotations.
Local Open Scope string_scope.

Section Units.
  Context {T : Type} {N : Num T}.
  Local Notation z0 := (@n0 T N).
  Local Notation z1 := (@n1 T N).

  (** A pint unit: canonical text, exponents of length, time and then, when it has any,
      of further base dimensions (angles are dimensionless in pint), and the factor to
      root units. Offset units (temperatures) are not modelled. *)
  Record punit : Type := { u_text : string; u_dim : list Z; u_factor : T }.
  (** A pint quantity with a scalar magnitude. *)
  Record quantity : Type := { q_mag : T; q_unit : punit }.

  (** [q.to(u).magnitude]; [None] is pint.errors.DimensionalityError. *)
  Definition quantity_to (q : quantity) (u : punit) : option T :=
    if String.eqb (u_text (q_unit q)) (u_text u) then Some (q_mag q)
    else if list_eq_dec Z.eq_dec (u_dim (q_unit q)) (u_dim u)
         then Some (nmul (q_mag q) (ndiv (u_factor (q_unit q)) (u_factor u)))
         else None.

  (** BaseUnits (87-100). *)
  Definition unit_div (a b : punit) : punit :=
    {| u_text := u_text a ++ " / " ++ u_text b;
       u_dim := zipw Z.sub (u_dim a) (u_dim b); u_factor := ndiv (u_factor a) (u_factor b) |}.
  Definition meter : punit := {| u_text := "meter"; u_dim := [1; 0]%Z; u_factor := z1 |}.
  Definition foot : punit := {| u_text := "foot"; u_dim := [1; 0]%Z; u_factor := nlit 3048 10000 |}.
  Definition second : punit := {| u_text := "second"; u_dim := [0; 1]%Z; u_factor := z1 |}.
  Definition radian : punit := {| u_text := "radian"; u_dim := [0; 0]%Z; u_factor := z1 |}.
  Record base_units : Type := { bu_length : punit; bu_time : punit; bu_angle : punit }.
  Definition bu_velocity (b : base_units) : punit := unit_div (bu_length b) (bu_time b).
  Definition bu_angular_velocity (b : base_units) : punit := unit_div (bu_angle b) (bu_time b).
  (** Class attributes [base_units]: dubins.py 68; base_models.py 122, point_model.py 102,
      rotational_model.py 125, sixdof_model.py 156, sun_model.py 70. *)
  Definition units_of (c : cls) : base_units :=
    match lib c with
    | BaseDubinsAircraftC | Dubins2dAircraftC | Dubins3dAircraftC =>
        {| bu_length := foot; bu_time := second; bu_angle := radian |}
    | _ => {| bu_length := meter; bu_time := second; bu_angle := radian |}
    end.

  (** Values of keyword arguments as pydantic sees them: what its float validator accepts as
      a number (with the number), a string (with the number it spells, if any), a pint
      quantity, anything else. *)
  Inductive cfgval : Type :=
  | CNum (x : T)
  | CStr (s : string) (num : option T)
  | CQty (q : quantity)
  | COther.

  (** build_unit_conversion_validator_fn (54-84) behind [Union[float, pint.Quantity]]. *)
  Definition unit_field (u : punit) (v : cfgval) : res T :=
    match v with
    | CNum x | CStr _ (Some x) => Ok x
    | CQty q => match quantity_to q u with Some x => Ok x | None => Err ValueError end
    | CStr _ None | COther => Err ValueError
    end.
  (** A plain [float] field; a quantity is accepted only through its [__float__], that is
      when it is dimensionless. *)
  Definition float_field (v : cfgval) : res T :=
    match v with
    | CNum x | CStr _ (Some x) => Ok x
    | CQty q => if list_eq_dec Z.eq_dec (u_dim (q_unit q)) [0; 0]%Z
                then Ok (nmul (q_mag q) (u_factor (q_unit q))) else Err ValueError
    | CStr _ None | COther => Err ValueError
    end.

  Inductive fkind : Type := FUnit (u : punit) | FFloat.
  Definition check_field (k : fkind) (v : cfgval) : res T :=
    match k with FUnit u => unit_field u v | FFloat => float_field v end.

  Definition mps : punit := unit_div meter second.
  Definition fps : punit := unit_div foot second.
  Definition rps : punit := unit_div radian second.

  (** Validator fields with their defaults: point_model.py 60-65, rotational_model.py 66-71,
      sixdof_model.py 87-99, sun_model.py 47, dubins.py 56-60 and 434-435,
      integrators.py 42-47. *)
  Definition fields (c : cls) : list (string * (fkind * T)) :=
    let f u n := (n, (FUnit u, z0)) in
    let p n := (n, (FFloat, z0)) in
    let dubins := [f foot "x"; f foot "y"; f foot "z"; f radian "heading"; ("v", (FUnit fps, nZ 200))] in
    match lib c with
    | CWHSpacecraftC => [f meter "x"; f meter "y"; f meter "z"; f mps "x_dot"; f mps "y_dot"; f mps "z_dot"]
    | CWHRotation2dSpacecraftC =>
        [f meter "x"; f meter "y"; f radian "theta"; f mps "x_dot"; f mps "y_dot"; f rps "wz"]
    | SixDOFSpacecraftC =>
        [f meter "x"; f meter "y"; f meter "z"; f mps "x_dot"; f mps "y_dot"; f mps "z_dot";
         p "q1"; p "q2"; p "q3"; p "q4"; f rps "wx"; f rps "wy"; f rps "wz"]
    | SunEntityC => [f radian "theta"]
    | BaseIntegratorC | Integrator1dC | Integrator2dC | Integrator3dC =>
        [p "x"; p "y"; p "z"; p "xdot"; p "ydot"; p "zdot"]
    | BaseDubinsAircraftC | Dubins2dAircraftC => dubins
    | Dubins3dAircraftC => dubins ++ [f radian "gamma"; f radian "roll"]
    | _ => []
    end.

  Definition kwargs : Type := list (string * cfgval).

  (** [self._get_config_validator()] called with the keyword arguments: [name] must be a string, extra arguments are
      forbidden (51-52), every field is checked. pydantic collects the errors into one
      ValidationError, a ValueError. *)
  Definition validate (c : cls) (kw : kwargs) : res (list (string * T)) :=
    match dict_get "name" kw with
    | Some (CStr _ _) =>
        if forallb (fun k => mem k ("name" :: map fst (fields c))) (map fst kw) then
          mapM (fun f : string * (fkind * T) =>
                  let '(n, (k, d)) := f in
                  match dict_get n kw with
                  | None => Ok (n, d)
                  | Some v => x <- check_field k v ;; Ok (n, x)
                  end) (fields c)
        else Err ValueError
    | _ => Err ValueError
    end.

  (** [self.config.n] *)
  Definition cget (cfg : list (string * T)) (n : string) : res T :=
    match dict_get n cfg with Some x => Ok x | None => Err AttributeError end.

  (** Order of the configuration values in [_build_state]: point_model.py 129-134,
      rotational_model.py 195-201, sixdof_model.py 247-255, sun_model.py 90-94,
      integrators.py 132-135, 226-229, 325-330, dubins.py 330-331, 570-578. *)
  Definition layout (c : cls) : list string :=
    match lib c with
    | CWHSpacecraftC => ["x"; "y"; "z"; "x_dot"; "y_dot"; "z_dot"]
    | CWHRotation2dSpacecraftC => ["x"; "y"; "theta"; "x_dot"; "y_dot"; "wz"]
    | SixDOFSpacecraftC => ["x"; "y"; "z"; "q1"; "q2"; "q3"; "q4"; "x_dot"; "y_dot"; "z_dot"; "wx"; "wy"; "wz"]
    | SunEntityC => ["theta"]
    | Integrator1dC => ["x"; "xdot"]
    | Integrator2dC => ["x"; "y"; "xdot"; "ydot"]
    | Integrator3dC => ["x"; "y"; "z"; "xdot"; "ydot"; "zdot"]
    | Dubins2dAircraftC => ["x"; "y"; "heading"; "v"]
    | Dubins3dAircraftC => ["x"; "y"; "z"; "heading"; "gamma"; "roll"; "v"]
    | _ => []
    end.

  (** Constructor parameters other than the configuration (the simulator reference is in
      Classes.v). *)
  Inductive params : Type :=
  | PCwh (m n : T) (samples : Z) (method : string)
  | PRot2d (m inertia acc vel inertia_wheel acc_wheel vel_wheel n : T) (samples : Z) (method : string) (jax : bool)
  | PSixDof (m : T) (I : mat3 T) (acc vel : numarg T) (inertia_wheel acc_wheel vel_wheel thrust : T) (body : bool)
            (n : T) (samples : Z) (method : string)
  | PSun (n : T) (method : string) (jax : bool)
  | PInt1 (m damping : T) (samples : Z) (method : string)
  | PInt2 (m damping : T) (samples : Z) (method : string)
  | PInt3 (m damping : T) (samples : Z) (method : string)
  | PDub2 (samples : Z) (method : string) (v_min v_max hr_min hr_max acc_min acc_max : T)
  | PDub3 (samples : Z) (method : string) (v_min v_max gamma_min gamma_max roll_min roll_max
           gr_min gr_max rr_min rr_max acc_min acc_max : T).
  Definition pcls (p : params) : cls :=
    match p with
    | PCwh _ _ _ _ => CWHSpacecraftC
    | PRot2d _ _ _ _ _ _ _ _ _ _ _ => CWHRotation2dSpacecraftC
    | PSixDof _ _ _ _ _ _ _ _ _ _ _ _ => SixDOFSpacecraftC
    | PSun _ _ _ => SunEntityC
    | PInt1 _ _ _ _ => Integrator1dC
    | PInt2 _ _ _ _ => Integrator2dC
    | PInt3 _ _ _ _ => Integrator3dC
    | PDub2 _ _ _ _ _ _ _ _ => Dubins2dAircraftC
    | PDub3 _ _ _ _ _ _ _ _ _ _ _ _ _ _ => Dubins3dAircraftC
    end.

  (** The constructor bodies with the values of [_build_state] in place. *)
  Definition body (w : world T) (p : params) (vals : list T) : res (entity T) :=
    match p, vals with
    | PCwh m n sa me, [x; y; z; vx; vy; vz] => cwh_spacecraft m n sa me x y z vx vy vz
    | PRot2d m i a v iw aw vw n sa me jx, [x; y; th; vx; vy; wz] =>
        rot2d_spacecraft w m i a v iw aw vw n sa me jx x y th vx vy wz
    | PSixDof m J a v iw aw vw t b n sa me, [x; y; z; q1; q2; q3; q4; vx; vy; vz; wx; wy; wz] =>
        sixdof_spacecraft m J a v iw aw vw t b n sa me x y z q1 q2 q3 q4 vx vy vz wx wy wz
    | PSun n me jx, [th] => sun_entity w n me jx th
    | PInt1 m c sa me, [x; vx] => integrator1d_body m c sa me x vx
    | PInt2 m c sa me, [x; y; vx; vy] => integrator2d_body m c sa me x y vx vy
    | PInt3 m c sa me, [x; y; z; vx; vy; vz] => integrator3d_body m c sa me x y z vx vy vz
    | PDub2 sa me v1 v2 h1 h2 a1 a2, [x; y; hd; v] => Ok (dubins2d_aircraft sa me v1 v2 h1 h2 a1 a2 x y hd v)
    | PDub3 sa me v1 v2 g1 g2 r1 r2 gr1 gr2 rr1 rr2 a1 a2, [x; y; z; hd; ga; ro; v] =>
        Ok (dubins3d_aircraft sa me v1 v2 g1 g2 r1 r2 gr1 gr2 rr1 rr2 a1 a2 x y z hd ga ro v)
    | _, _ => Err TypeError
    end.

  (** Construction of a class [c] that is, or derives from, the library class of
      [p]: the abstract-member check, then the dynamics object (which may raise), then the
      validation of the configuration, then the state. *)
  Definition make (w : world T) (id : nat) (c : cls) (p : params) (kw : kwargs) : res (obj T) :=
    if cls_eqb (lib c) (pcls p) then
      construct id c
        (_ <- body w p (repeat z0 (length (layout c))) ;;
         cfg <- validate c kw ;;
         vals <- mapM (cget cfg) (layout c) ;;
         body w p vals)
    else Err TypeError.

  (** Properties returning quantities (base_models.py 221-246, 350-375; point_model.py
      156-179; rotational_model.py 248-271; sixdof_model.py 294-317; dubins.py 115-189):
      accessor name and unit. The angular-velocity ones are spelled [wx_with_unit]. *)
  Definition unit_views (c : cls) : list (string * (string * punit)) :=
    let b := units_of c in
    let len := [("x_with_units", ("x", bu_length b)); ("y_with_units", ("y", bu_length b));
                ("z_with_units", ("z", bu_length b))] in
    let vel := [("x_dot_with_units", ("x_dot", bu_velocity b)); ("y_dot_with_units", ("y_dot", bu_velocity b));
                ("z_dot_with_units", ("z_dot", bu_velocity b))] in
    let ang := [("wx_with_unit", ("wx", bu_angular_velocity b)); ("wy_with_unit", ("wy", bu_angular_velocity b));
                ("wz_with_unit", ("wz", bu_angular_velocity b))] in
    match lib c with
    | CWHSpacecraftC => (len ++ vel)%list
    | CWHRotation2dSpacecraftC | SixDOFSpacecraftC => (len ++ vel ++ ang)%list
    | Dubins2dAircraftC | Dubins3dAircraftC =>
        (len ++ [("v_with_units", ("v", bu_velocity b)); ("yaw_with_units", ("yaw", bu_angle b));
                 ("pitch_with_units", ("pitch", bu_angle b)); ("roll_with_units", ("roll", bu_angle b));
                 ("heading_with_units", ("heading", bu_angle b)); ("gamma_with_units", ("gamma", bu_angle b))])%list
    | _ => len
    end.
  Definition get_with_units (o : obj T) (name : string) : res quantity :=
    match dict_get name (unit_views (o_cls o)) with
    | Some (a, u) => x <- getattr o a ;; Ok {| q_mag := x; q_unit := u |}
    | None => Err AttributeError
    end.
End Units.
Arguments punit T : clear implicits.
Arguments quantity T : clear implicits.
Arguments cfgval T : clear implicits.
Arguments kwargs T : clear implicits.
Arguments params T : clear implicits.
