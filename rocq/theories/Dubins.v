(** Model of safe_autonomy_dynamics/dubins.py. *)
From Coq Require Import String List Bool Arith ZArith.
From Verif Require Import PyBase Num Arr BaseModel Cwh Utils SixDof.
Import ListNotations.

Section Dubins.
  Context {T : Type} {N : Num T}.
  Local Notation z0 := (@n0 T N).
  Local Notation z1 := (@n1 T N).

  (** Dubins2dDynamics.state_transition_system (403-411). *)
  Definition dubins2d_f (s : arr T) : res (arr T) :=
    match s with
    | A0 _ => Err TypeError
    | A1 [_; _; heading; v] =>
        Ok (A1 [nmul v (ncos heading); nmul v (nsin heading); z0; z0])
    | A1 _ => Err ValueError
    end.
  (** Dubins2dDynamics.state_transition_input (413-415). *)
  Definition dubins2d_g (_ : arr T) : res (list (list T)) :=
    Ok [[z0; z0]; [z0; z0]; [z1; z0]; [z0; z1]].

  (** Dubins2dAircraft.__init__ and _build_state (281-316, 330-331). *)
  Definition dubins2d_dyn (v_min v_max : T) (samples : Z) (method : string) : dyn T :=
    {| d_min := A1 (map nf32 [nninf; nninf; nninf; v_min]);
       d_max := A1 (map nf32 [npinf; npinf; npinf; v_max]);
       d_wrap := Some (A1 (map nf32 [nnan; nnan; z0; nnan]));
       d_use_jax := false; d_samples := samples; d_sdmin := no_min; d_sdmax := no_max;
       d_method := method; d_raw := affine_raw dubins2d_f dubins2d_g |}.
  Definition dubins2d_control_map : list (string * nat) :=
    [("heading_rate", 0); ("acceleration", 1)]%string.
  Definition dubins2d_aircraft (samples : Z) (method : string) (v_min v_max hr_min hr_max acc_min acc_max : T)
             (x y heading v : T) : entity T :=
    mk_entity (dubins2d_dyn v_min v_max samples method) (A1 [z0; z0])
      (A1 [hr_min; acc_min]) (A1 [hr_max; acc_max]) (Some dubins2d_control_map)
      (A1 (map nf32 [x; y; heading; v])).

  (** Dubins3dDynamics.__init__ default g (660). *)
  Definition G_FT : T := nlit 3217 100.

  (** Dubins3dDynamics.state_transition_system (664-674). *)
  Definition dubins3d_f (g : T) (s : arr T) : res (arr T) :=
    match s with
    | A0 _ => Err TypeError
    | A1 [_; _; _; heading; gamma; roll; v] =>
        Ok (A1 [nmul (nmul v (ncos heading)) (ncos gamma);
                nmul (nmul v (nsin heading)) (ncos gamma);
                nmul (nmul (nZ (-1)) v) (nsin gamma);
                nmul (ndiv g v) (ntan roll);
                z0; z0; z0])
    | A1 _ => Err ValueError
    end.
  (** Dubins3dDynamics.state_transition_input (676-678). *)
  Definition dubins3d_g (_ : arr T) : res (list (list T)) :=
    Ok [[z0; z0; z0]; [z0; z0; z0]; [z0; z0; z0]; [z0; z0; z0];
        [z1; z0; z0]; [z0; z1; z0]; [z0; z0; z1]].

  (** Dubins3dAircraft.__init__ and _build_state (513-555, 574-578). *)
  Definition dubins3d_dyn (g v_min v_max gamma_min gamma_max roll_min roll_max : T)
             (samples : Z) (method : string) : dyn T :=
    {| d_min := A1 (map nf32 [nninf; nninf; nninf; nninf; gamma_min; roll_min; v_min]);
       d_max := A1 (map nf32 [npinf; npinf; npinf; npinf; gamma_max; roll_max; v_max]);
       d_wrap := Some (A1 (map nf32 [nnan; nnan; nnan; z0; z0; z0; nnan]));
       d_use_jax := false; d_samples := samples; d_sdmin := no_min; d_sdmax := no_max;
       d_method := method; d_raw := affine_raw (dubins3d_f g) dubins3d_g |}.
  Definition dubins3d_control_map : list (string * nat) :=
    [("gamma_rate", 0); ("roll_rate", 1); ("acceleration", 2)]%string.
  Definition dubins3d_aircraft (samples : Z) (method : string)
             (v_min v_max gamma_min gamma_max roll_min roll_max gr_min gr_max rr_min rr_max acc_min acc_max : T)
             (x y z heading gamma roll v : T) : entity T :=
    mk_entity (dubins3d_dyn G_FT v_min v_max gamma_min gamma_max roll_min roll_max samples method)
      (A1 [z0; z0; z0]) (A1 [gr_min; rr_min; acc_min]) (A1 [gr_max; rr_max; acc_max])
      (Some dubins3d_control_map) (A1 (map nf32 [x; y; z; heading; gamma; roll; v])).

  (** BaseDubinsAircraft.velocity (202-213). *)
  Definition dubins_velocity (v heading gamma : T) : list T :=
    map nf32 [nmul (nmul v (ncos heading)) (ncos gamma);
              nmul (nmul v (nsin heading)) (ncos gamma);
              nmul (nmul (nZ (-1)) v) (nsin gamma)].

  (** Accessors of Dubins2dAircraft (333-395). *)
  Definition d2_heading (e : entity T) : res T := aidx (e_state e) 2.
  Definition d2_v (e : entity T) : res T := aidx (e_state e) 3.
  Definition d2_position (e : entity T) : res (arr T) :=
    x <- aidx (e_state e) 0 ;; y <- aidx (e_state e) 1 ;; Ok (A1 [x; y; z0]).
  Definition d2_velocity (e : entity T) : res (arr T) :=
    v <- d2_v e ;; hd <- d2_heading e ;; Ok (A1 (dubins_velocity v hd z0)).
  (** acceleration (391-395): state_dot[3] times velocity / v. *)
  Definition d2_acceleration (e : entity T) : res (arr T) :=
    acc <- aidx (e_sdot e) 3 ;; v <- d2_v e ;; vel <- d2_velocity e ;;
    q <- bmap2 ndiv vel (A0 v) ;; Ok (amap (nmul acc) q).

  (** Accessors of Dubins3dAircraft (580-645). *)
  Definition d3_heading (e : entity T) : res T := aidx (e_state e) 3.
  Definition d3_gamma (e : entity T) : res T := aidx (e_state e) 4.
  Definition d3_roll (e : entity T) : res T := aidx (e_state e) 5.
  Definition d3_v (e : entity T) : res T := aidx (e_state e) 6.
  Definition d3_position (e : entity T) : res (arr T) := aslice (e_state e) 0 3.
  Definition d3_velocity (e : entity T) : res (arr T) :=
    v <- d3_v e ;; hd <- d3_heading e ;; ga <- d3_gamma e ;; Ok (A1 (dubins_velocity v hd ga)).
  Definition d3_acceleration (e : entity T) : res (arr T) :=
    acc <- aidx (e_sdot e) 6 ;; v <- d3_v e ;; vel <- d3_velocity e ;;
    q <- bmap2 ndiv vel (A0 v) ;; Ok (amap (nmul acc) q).

  (** scipy's Rotation.from_euler("ZYX", [yaw, pitch, roll]): intrinsic rotations about
      z, y, x, composed as half-angle quaternions; result ordered [x, y, z, w]. *)
  Definition from_euler_zyx (yaw pitch roll : T) : T * T * T * T :=
    let half a := ndiv a (nZ 2) in
    let qz := (ncos (half yaw), z0, z0, nsin (half yaw)) in
    let qy := (ncos (half pitch), z0, nsin (half pitch), z0) in
    let qx := (ncos (half roll), nsin (half roll), z0, z0) in
    let '(w, a, b, c) := hamilton_product (hamilton_product qz qy) qx in (a, b, c, w).
  (** BaseDubinsAircraft.orientation (215-227) with yaw = heading (121-127), pitch = gamma
      (135-141); gamma and roll of the 2d aircraft are the constant 0 (376-389). *)
  Definition d2_orientation (e : entity T) : res (T * T * T * T) :=
    hd <- d2_heading e ;; Ok (from_euler_zyx hd z0 z0).
  Definition d3_orientation (e : entity T) : res (T * T * T * T) :=
    hd <- d3_heading e ;; ga <- d3_gamma e ;; ro <- d3_roll e ;; Ok (from_euler_zyx hd ga ro).

  (** Element setters [e.x = value] etc. (337-367, 584-634): write into the state array
      without limits or wrapping. The float32 array of a fresh aircraft stores the value
      as float32; after a step the array is float64. [f32] says which. *)
  Definition set_elem (e : entity T) (i : nat) (f32 : bool) (v : T) : res (entity T) :=
    s <- arr_set (e_state e) i (if f32 then nf32 v else v) ;; Ok (set_state e s).
End Dubins.
