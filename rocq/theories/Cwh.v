(** Model of safe_autonomy_dynamics/cwh/point_model.py. *)
From Coq Require Import String List Bool Arith ZArith.
From Verif Require Import PyBase Num Arr BaseModel.
Import ListNotations.

Section Cwh.
  Context {T : Type} {N : Num T}.
  Local Notation z0 := (@n0 T N).
  Local Notation z1 := (@n1 T N).

  (** [state[i]] on a 1-d array. *)
  Definition aidx (a : arr T) (i : nat) : res T :=
    match a with
    | A0 _ => Err IndexError
    | A1 l => match nth_error l i with Some x => Ok x | None => Err IndexError end
    end.

  (** [state[i:j].copy()] for 0 <= i <= j: slicing never raises on a 1-d array. *)
  Definition aslice (a : arr T) (i j : nat) : res (arr T) :=
    match a with
    | A0 _ => Err IndexError
    | A1 l => Ok (A1 (firstn (j - i) (skipn i l)))
    end.

  (** M_DEFAULT, N_DEFAULT (point_model.py 32-33). *)
  Definition M_DEFAULT : T := nZ 12.
  Definition N_DEFAULT : T := nlit 1027 1000000.

  (** generate_cwh_matrices (271-327). [1 / m] is Python division. *)
  Definition generate_cwh_matrices (m n : T) (mode : string)
    : res (list (list T) * list (list T)) :=
    _ <- py_assert (String.eqb mode "2d" || String.eqb mode "3d") ;;
    let n2 := nmul n n in
    im <- pydiv z1 m ;;
    if String.eqb mode "2d" then
      Ok ([[z0; z0; z1; z0];
           [z0; z0; z0; z1];
           [nmul (nZ 3) n2; z0; z0; nmul (nZ 2) n];
           [z0; z0; nmul (nZ (-2)) n; z0]],
          [[z0; z0];
           [z0; z0];
           [im; z0];
           [z0; im]])
    else
      Ok ([[z0; z0; z0; z1; z0; z0];
           [z0; z0; z0; z0; z1; z0];
           [z0; z0; z0; z0; z0; z1];
           [nmul (nZ 3) n2; z0; z0; z0; nmul (nZ 2) n; z0];
           [z0; z0; z0; nmul (nZ (-2)) n; z0; z0];
           [z0; z0; nneg n2; z0; z0; z0]],
          [[z0; z0; z0];
           [z0; z0; z0];
           [z0; z0; z0];
           [im; z0; z0];
           [z0; im; z0];
           [z0; z0; im]]).

  (** BaseLinearODESolverDynamics.__init__ with default limits
      (base_models.py 681-692, 414-432, 502-520). *)
  Definition linear_dyn (A B : list (list T)) (samples : Z) (method : string) : res (dyn T) :=
    _ <- py_assert (is_rect A (length A)) ;;
    _ <- py_assert (Nat.eqb (length A) (length B)) ;;
    Ok {| d_min := no_min; d_max := no_max; d_wrap := None; d_use_jax := false;
          d_samples := samples; d_sdmin := no_min; d_sdmax := no_max; d_method := method;
          d_raw := linear_raw A B |}.

  (** CWHDynamics.__init__ (262-268). *)
  Definition cwh_dyn (m n : T) (samples : Z) (method : string) : res (dyn T) :=
    '(A, B) <- generate_cwh_matrices m n "3d" ;;
    linear_dyn A B samples method.

  Definition cwh_control_map : list (string * nat) :=
    [("thrust_x", 0); ("thrust_y", 1); ("thrust_z", 2)]%string.

  (** CWHSpacecraft.__init__ and _build_state (104-115, 129-134); the configuration
      values are the ones that passed validation (see Units.v). *)
  Definition cwh_spacecraft (m n : T) (samples : Z) (method : string)
             (x y z x_dot y_dot z_dot : T) : res (entity T) :=
    d <- cwh_dyn m n samples method ;;
    Ok (mk_entity d (A1 [z0; z0; z0]) (A0 (nZ (-1))) (A0 z1) (Some cwh_control_map)
          (A1 (map nf32 [x; y; z; x_dot; y_dot; z_dot]))).

  (** Accessors (136-203). *)
  Definition cwh_position (e : entity T) : res (arr T) := aslice (e_state e) 0 3.
  Definition cwh_velocity (e : entity T) : res (arr T) := aslice (e_state e) 3 6.
End Cwh.
