(** Model of safe_autonomy_dynamics/cwh/rotational_model.py. *)
From Coq Require Import String List Bool Arith ZArith.
From Verif Require Import PyBase Num Arr BaseModel Cwh.
Import ListNotations.

Section Rot2d.
  Context {T : Type} {N : Num T}.
  Local Notation z0 := (@n0 T N).
  Local Notation z1 := (@n1 T N).

  (** Default constants (rotational_model.py 34-39). *)
  Definition R2_INERTIA : T := nlit 573 10000.
  Definition R2_INERTIA_WHEEL : T := nlit 41 1000000.
  Definition R2_ANG_ACC_LIMIT : T := nlit 17453 1000000.
  Definition R2_ANG_VEL_LIMIT : T := nlit 34907 1000000.
  Definition R2_ACC_LIMIT_WHEEL : T := nlit 1813 10.
  Definition R2_VEL_LIMIT_WHEEL : T := nZ 576.

  (** CWHRotation2dDynamics.state_transition_system (438-450). *)
  Definition rot2d_f (A : list (list T)) (s : arr T) : res (arr T) :=
    match s with
    | A0 _ => Err TypeError
    | A1 [x; y; _; x_dot; y_dot; theta_dot] =>
        pv <- matvec A (A1 (map nf32 [x; y; x_dot; y_dot])) ;;
        p0 <- aidx pv 0 ;; p1 <- aidx pv 1 ;; p2 <- aidx pv 2 ;; p3 <- aidx pv 3 ;;
        Ok (A1 (map nf32 [p0; p1; theta_dot; p2; p3; z0]))
    | A1 _ => Err ValueError
    end.

  (** CWHRotation2dDynamics.state_transition_input (452-465). [theta] is a numpy
      scalar, so the divisions by m are numpy divisions. *)
  Definition rot2d_g (m inertia : T) (s : arr T) : res (list (list T)) :=
    theta <- aidx s 2 ;;
    iz <- pydiv z1 inertia ;;
    Ok [[z0; z0; z0];
        [z0; z0; z0];
        [z0; z0; z0];
        [ndiv (ncos theta) m; ndiv (nneg (nsin theta)) m; z0];
        [ndiv (nsin theta) m; ndiv (ncos theta) m; z0];
        [z0; z0; iz]].

  (** CWHRotation2dDynamics.__init__ with the default state and derivative limits
      (384-436). *)
  Definition rot2d_dyn (w : world T) (m inertia acc vel n : T) (samples : Z) (method : string)
             (use_jax : bool) : res (dyn T) :=
    if use_jax && negb (w_jax w) then Err ImportError
    else
      '(A, B) <- generate_cwh_matrices m n "2d" ;;
      _ <- py_assert (is_rect A (length A)) ;;
      _ <- py_assert (Nat.eqb (length A) (length B)) ;;
      Ok {| d_min := A1 [nninf; nninf; nninf; nninf; nninf; nneg vel];
            d_max := A1 [npinf; npinf; npinf; npinf; npinf; vel];
            d_wrap := Some (A1 [nnan; nnan; z0; nnan; nnan; nnan]);
            d_use_jax := use_jax; d_samples := samples;
            d_sdmin := A1 [nninf; nninf; nneg vel; nninf; nninf; nneg acc];
            d_sdmax := A1 [npinf; npinf; vel; npinf; npinf; acc];
            d_method := method;
            d_raw := affine_raw (rot2d_f A) (rot2d_g m inertia) |}.

  Definition rot2d_control_map : list (string * nat) :=
    [("thrust_x", 0); ("thrust_y", 1); ("moment_z", 2)]%string.

  (** Combined limits (154-155). *)
  Definition rot2d_limit (lim inertia_wheel wheel inertia : T) : res T :=
    q <- pydiv (nmul inertia_wheel wheel) inertia ;; Ok (py_min lim q).

  (** CWHRotation2dSpacecraft.__init__ and _build_state (127-180, 195-201). *)
  Definition rot2d_spacecraft (w : world T)
             (m inertia acc_lim vel_lim inertia_wheel acc_wheel vel_wheel n : T)
             (samples : Z) (method : string) (use_jax : bool)
             (x y theta x_dot y_dot wz : T) : res (entity T) :=
    acc <- rot2d_limit acc_lim inertia_wheel acc_wheel inertia ;;
    vel <- rot2d_limit vel_lim inertia_wheel vel_wheel inertia ;;
    d <- rot2d_dyn w m inertia acc vel n samples method use_jax ;;
    Ok (mk_entity d (A1 [z0; z0; z0])
          (A1 [nZ (-1); nZ (-1); nmul (nneg acc) inertia])
          (A1 [z1; z1; nmul acc inertia])
          (Some rot2d_control_map)
          (A1 (map nf32 [x; y; theta; x_dot; y_dot; wz]))).

  (** Accessors (203-319). *)
  Definition rot2d_position (e : entity T) : res (arr T) :=
    x <- aidx (e_state e) 0 ;; y <- aidx (e_state e) 1 ;; Ok (A1 [x; y; z0]).
  Definition rot2d_velocity (e : entity T) : res (arr T) :=
    x <- aidx (e_state e) 3 ;; y <- aidx (e_state e) 4 ;; Ok (A1 [x; y; z0]).
  Definition rot2d_angular_velocity (e : entity T) : res (arr T) :=
    wz <- aidx (e_state e) 5 ;; Ok (A1 [z0; z0; wz]).
  (** orientation / quaternion (291-309): scipy's intrinsic Z rotation by theta as
      quaternion [x, y, z, w]. *)
  Definition rot2d_quaternion (e : entity T) : res (arr T) :=
    th <- aidx (e_state e) 2 ;;
    let half := ndiv th (nZ 2) in
    Ok (A1 [z0; z0; nsin half; ncos half]).
End Rot2d.
