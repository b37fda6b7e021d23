(** Specification vocabulary for objects: equality, relative motion, configuration. Nothing
    here is used by the model. *)
From Coq Require Import String List Bool Arith ZArith Reals.
From Verif Require Import PyBase Num Arr BaseModel SpecBase XReal Classes Units.
Import ListNotations.
Local Open Scope R_scope.

(** The object is of (a class derived from) library class [c] and its state vector is [l]. *)
Definition is_a (c : cls) (l : list R) (o : obj xr) : Prop :=
  lib (o_cls o) = c /\ e_state (o_ent o) = A1 (map Fin l).

(** What is assumed of scipy's as_euler: three finite angles for a finite quaternion. *)
Definition euler_sane (ae : xr * xr * xr * xr -> list xr) : Prop :=
  forall a b c d : R, exists x y z : R, ae (Fin a, Fin b, Fin c, Fin d) = [Fin x; Fin y; Fin z].

(** Two angles that differ by whole turns of 4 pi (the half angles agree modulo 2 pi). *)
Definition same_half_angle (a b : R) : Prop := exists k : Z, b = a + 4 * PI * IZR k.

(** A quaternion divided by its length. *)
Definition qnorm (a b c d : R) : R := sqrt (a * a + b * b + c * c + d * d).
Definition qdir (a b c d : R) : list R :=
  [a / qnorm a b c d; b / qnorm a b c d; c / qnorm a b c d; d / qnorm a b c d].

(** Simulators: the entity registered under a name. *)
Definition registered (s : sim xr) (name : string) (o : obj xr) : Prop :=
  exists d, s = Some d /\ dict_get name d = Some o.

(** A spacecraft that offers relative position and velocity, with position [p] and velocity
    [v] in Hill's frame, as its public attributes show them. *)
Definition at_ (o : obj xr) (p v : R * R * R) : Prop :=
  has_relative (o_cls o) = true /\
  let '(x, y, z) := p in let '(vx, vy, vz) := v in
  getattr (N := XR Fin) o "x" = Ok (Fin x) /\ getattr (N := XR Fin) o "y" = Ok (Fin y) /\
  getattr (N := XR Fin) o "z" = Ok (Fin z) /\
  getattr (N := XR Fin) o "x_dot" = Ok (Fin vx) /\ getattr (N := XR Fin) o "y_dot" = Ok (Fin vy) /\
  getattr (N := XR Fin) o "z_dot" = Ok (Fin vz).

(** The length of the state vector of a library class. *)
Definition state_len (c : cls) : nat :=
  match lib c with
  | CWHSpacecraftC | CWHRotation2dSpacecraftC | Integrator3dC => 6
  | SixDOFSpacecraftC => 13
  | SunEntityC => 1
  | Integrator1dC => 2
  | Integrator2dC | Dubins2dAircraftC => 4
  | Dubins3dAircraftC => 7
  | _ => 0
  end.

(** Public attribute that shows a configuration field: the same name, except that the
    integrators spell their velocities with an underscore. *)
Definition shown_as (f : string) : string :=
  match f with
  | "xdot" => "x_dot" | "ydot" => "y_dot" | "zdot" => "z_dot" | _ => f
  end%string.

(** Documented defaults: 200 ft/s for the speed of an aircraft, 0 for everything else. *)
Definition documented_default {T} {N : Num T} (f : string) : T :=
  if String.eqb f "v" then nZ 200 else n0.

(** The size of a quantity in root units (metres, seconds, radians). *)
Definition size (q : quantity xr) (x : R) : Prop :=
  exists m f, q_mag q = Fin m /\ u_factor (q_unit q) = Fin f /\ x = m * f.

(** ** Configuration fields as documented *)
Inductive qkind : Type := Length | Speed | Angle | AngularRate | Number.
Definition kind_dim (k : qkind) : list Z :=
  match k with Length => [1; 0] | Speed => [1; -1] | Angle | Number => [0; 0] | AngularRate => [0; -1] end%Z.

(** Spacecraft use metres, aircraft feet; both use seconds and radians. *)
Definition aircraft (c : cls) : bool :=
  match lib c with Dubins2dAircraftC | Dubins3dAircraftC => true | _ => false end.
Definition kind_factor (c : cls) (k : qkind) : R :=
  match k with Length | Speed => if aircraft c then 3048 / 10000 else 1 | _ => 1 end.

Definition documented_fields (c : cls) : list (string * qkind) :=
  (match lib c with
   | CWHSpacecraftC =>
       [("x", Length); ("y", Length); ("z", Length); ("x_dot", Speed); ("y_dot", Speed); ("z_dot", Speed)]
   | CWHRotation2dSpacecraftC =>
       [("x", Length); ("y", Length); ("theta", Angle); ("x_dot", Speed); ("y_dot", Speed); ("wz", AngularRate)]
   | SixDOFSpacecraftC =>
       [("x", Length); ("y", Length); ("z", Length); ("q1", Number); ("q2", Number); ("q3", Number); ("q4", Number);
        ("x_dot", Speed); ("y_dot", Speed); ("z_dot", Speed); ("wx", AngularRate); ("wy", AngularRate); ("wz", AngularRate)]
   | SunEntityC => [("theta", Angle)]
   | Dubins2dAircraftC => [("x", Length); ("y", Length); ("heading", Angle); ("v", Speed)]
   | Dubins3dAircraftC =>
       [("x", Length); ("y", Length); ("z", Length); ("heading", Angle); ("gamma", Angle); ("roll", Angle); ("v", Speed)]
   | Integrator1dC => [("x", Number); ("xdot", Number)]
   | Integrator2dC => [("x", Number); ("y", Number); ("xdot", Number); ("ydot", Number)]
   | Integrator3dC => [("x", Number); ("y", Number); ("z", Number); ("xdot", Number); ("ydot", Number); ("zdot", Number)]
   | _ => []
   end)%string.

(** Texts identify units: a unit written like one of the library's is that unit. *)
Definition genuine {T} {N : Num T} (u : punit T) : Prop :=
  forall v, In v [meter; foot; unit_div meter second; unit_div foot second; radian; unit_div radian second] ->
    u_text u = u_text v -> u = v.

(** A configuration value the documentation allows for a field. *)
Definition allowed {T} {N : Num T} (k : qkind) (v : cfgval T) : Prop :=
  match v with
  | CNum _ | CStr _ (Some _) => True
  | CQty q => genuine (q_unit q) /\ u_dim (q_unit q) = kind_dim k
  | _ => False
  end.
Definition good_config {T} {N : Num T} (c : cls) (kw : kwargs T) : Prop :=
  (exists s num, dict_get "name"%string kw = Some (CStr s num)) /\
  (forall f, In f (map fst kw) -> f = "name"%string \/ In f (map fst (documented_fields c))) /\
  (forall f k v, In (f, k) (documented_fields c) -> dict_get f kw = Some v -> allowed k v).

(** Constructor parameters that make physical sense: nonzero masses and inertias, limits
    given as numbers or float arrays of three elements, jax requested only when available. *)
Definition three_numbers {T} (a : Utils.numarg T) : Prop :=
  match a with
  | Utils.NAnum _ => True
  | Utils.NAarr x => Utils.nd_shape x = [3%nat] /\ Utils.nd_is_f64 x = true /\ exists a b c, Utils.nd_data x = Some [a; b; c]
  | _ => False
  end.
Definition good_params {T} {N : Num T} (w : world T) (p : params T) : Prop :=
  let nonzero x := neqb x n0 = false in
  match p with
  | PCwh m _ _ _ => nonzero m
  | PRot2d m i _ _ _ _ _ _ _ _ jax => nonzero m /\ nonzero i /\ (jax = true -> w_jax w = true)
  | PSixDof m _ acc vel _ _ _ _ _ _ _ _ => nonzero m /\ three_numbers acc /\ three_numbers vel
  | PSun _ _ jax => jax = true -> w_jax w = true
  | PInt1 m _ _ _ | PInt2 m _ _ _ | PInt3 m _ _ _ => nonzero m
  | PDub2 _ _ _ _ _ _ _ _ | PDub3 _ _ _ _ _ _ _ _ _ _ _ _ _ _ => True
  end.

(** The property that shows a field as a quantity. *)
Definition view_of (f : string) : string :=
  if existsb (String.eqb f) ["wx"; "wy"; "wz"]%string then (f ++ "_with_unit")%string else (f ++ "_with_units")%string.

(** Distinct actuator names drive distinct control elements, and every one of the [k]
    elements has a name. *)
Definition addressed (cmap : list (string * nat)) (k : nat) : Prop :=
  cmap_ok cmap k /\ forall i, (i < k)%nat -> exists name, dict_get name cmap = Some i.

(** The classes that a user of the library is offered. *)
Definition exported : list cls :=
  [CWHSpacecraftC; CWHRotation2dSpacecraftC; SixDOFSpacecraftC; SunEntityC; Integrator1dC; Integrator2dC; Integrator3dC;
   Dubins2dAircraftC; Dubins3dAircraftC].
