(** Model of safe_autonomy_dynamics/integrators.py. *)
From Coq Require Import String List Bool Arith ZArith.
From Verif Require Import PyBase Num Arr BaseModel Cwh.
Import ListNotations.

Section Integ.
  Context {T : Type} {N : Num T}.
  Local Notation z0 := (@n0 T N).
  Local Notation z1 := (@n1 T N).

  (** generate_dynamics_matrices (398-464). *)
  Definition generate_dynamics_matrices (m damping : T) (mode : string)
    : res (list (list T) * list (list T)) :=
    _ <- py_assert (String.eqb mode "1d" || String.eqb mode "2d" || String.eqb mode "3d") ;;
    im <- pydiv z1 m ;;
    let nd := nneg damping in
    if String.eqb mode "1d" then
      Ok ([[z0; z1]; [z0; nd]], [[z0]; [im]])
    else if String.eqb mode "2d" then
      Ok ([[z0; z0; z1; z0];
           [z0; z0; z0; z1];
           [z0; z0; nd; z0];
           [z0; z0; z0; nd]],
          [[z0; z0]; [z0; z0]; [im; z0]; [z0; im]])
    else
      Ok ([[z0; z0; z0; z1; z0; z0];
           [z0; z0; z0; z0; z1; z0];
           [z0; z0; z0; z0; z0; z1];
           [z0; z0; z0; nd; z0; z0];
           [z0; z0; z0; z0; nd; z0];
           [z0; z0; z0; z0; z0; nd]],
          [[z0; z0; z0]; [z0; z0; z0]; [z0; z0; z0];
           [im; z0; z0]; [z0; im; z0]; [z0; z0; im]]).

  (** IntegratorDynamics.__init__ (389-395). *)
  Definition integ_dyn (m damping : T) (mode : string) (samples : Z) (method : string)
    : res (dyn T) :=
    '(A, B) <- generate_dynamics_matrices m damping mode ;;
    linear_dyn A B samples method.

  (** Control maps exactly as written (119-121, 212-215, 310-314). *)
  Definition integ1_control_map : list (string * nat) := [("thrust_x", 0)]%string.
  Definition integ2_control_map : list (string * nat) := [("thrust_x", 0); ("thrust_y", 0)]%string.
  Definition integ3_control_map : list (string * nat) :=
    [("thrust_x", 0); ("thrust_y", 0); ("thrust_z", 0)]%string.

  (** The bodies of Integrator1d/2d/3d.__init__ (113-135, 206-229, 304-330). That the
      classes are abstract, so that no call reaches these bodies, is modelled in
      Classes.v. *)
  Definition integrator1d_body (m damping : T) (samples : Z) (method : string) (x xdot : T)
    : res (entity T) :=
    d <- integ_dyn m damping "1d" samples method ;;
    Ok (mk_entity d (A1 [z0]) (A0 (nZ (-1))) (A0 z1) (Some integ1_control_map)
          (A1 (map nf32 [x; xdot]))).
  Definition integrator2d_body (m damping : T) (samples : Z) (method : string)
             (x y xdot ydot : T) : res (entity T) :=
    d <- integ_dyn m damping "2d" samples method ;;
    Ok (mk_entity d (A1 [z0; z0]) (A0 (nZ (-1))) (A0 z1) (Some integ2_control_map)
          (A1 (map nf32 [x; y; xdot; ydot]))).
  Definition integrator3d_body (m damping : T) (samples : Z) (method : string)
             (x y z xdot ydot zdot : T) : res (entity T) :=
    d <- integ_dyn m damping "3d" samples method ;;
    Ok (mk_entity d (A1 [z0; z0; z0]) (A0 (nZ (-1))) (A0 z1) (Some integ3_control_map)
          (A1 (map nf32 [x; y; z; xdot; ydot; zdot]))).
End Integ.
