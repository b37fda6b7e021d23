(** Model of safe_autonomy_dynamics/cwh/sixdof_model.py. *)
From Coq Require Import String List Bool Arith ZArith.
From Verif Require Import PyBase Num Arr BaseModel Cwh Utils.
Import ListNotations.

Section SixDof.
  Context {T : Type} {N : Num T}.
  Local Notation z0 := (@n0 T N).
  Local Notation z1 := (@n1 T N).

  (** A 3x3 inertia matrix; only the diagonal is ever read (185-188, 525-527, 554). *)
  Record mat3 : Type := {
    m00 : T; m01 : T; m02 : T; m10 : T; m11 : T; m12 : T; m20 : T; m21 : T; m22 : T }.

  (** Default constants (sixdof_model.py 34-42). *)
  Definition SD_INERTIA : mat3 :=
    let i := nlit 573 10000 in
    {| m00 := i; m01 := z0; m02 := z0; m10 := z0; m11 := i; m12 := z0; m20 := z0; m21 := z0; m22 := i |}.
  Definition SD_INERTIA_WHEEL : T := nlit 41 1000000.
  Definition SD_ANG_ACC_LIMIT : T := nlit 17453 1000000.
  Definition SD_ANG_VEL_LIMIT : T := nlit 34907 1000000.
  Definition SD_ACC_LIMIT_WHEEL : T := nlit 1813 10.
  Definition SD_VEL_LIMIT_WHEEL : T := nZ 576.
  Definition SD_THRUST_LIMIT : T := n1.

  (** hamilton_product (598-607). *)
  Definition hamilton_product (r q : T * T * T * T) : T * T * T * T :=
    let '(r0, r1, r2, r3) := r in
    let '(q0, q1, q2, q3) := q in
    (nsub (nsub (nsub (nmul r0 q0) (nmul r1 q1)) (nmul r2 q2)) (nmul r3 q3),
     nsub (nadd (nadd (nmul r0 q1) (nmul r1 q0)) (nmul r2 q3)) (nmul r3 q2),
     nadd (nadd (nsub (nmul r0 q2) (nmul r1 q3)) (nmul r2 q0)) (nmul r3 q1),
     nadd (nsub (nadd (nmul r0 q3) (nmul r1 q2)) (nmul r2 q1)) (nmul r3 q0)).

  (** apply_quat (576-596): [q] is ordered [x, y, z, w]. *)
  Definition apply_quat (x : T * T * T) (q : T * T * T * T) : T * T * T :=
    let '(x0, x1, x2) := x in
    let '(a, b, c, w) := q in
    let p := (z0, x0, x1, x2) in
    let r := (w, a, b, c) in
    let r_p := (w, nneg a, nneg b, nneg c) in
    let '(_, y0, y1, y2) := hamilton_product (hamilton_product r p) r_p in
    (y0, y1, y2).

  (** SixDOFDynamics.state_transition_system (510-548). *)
  Definition sixdof_f (A : list (list T)) (I : mat3) (s : arr T) : res (arr T) :=
    match s with
    | A0 _ => Err TypeError
    | A1 [x; y; z; q1; q2; q3; q4; x_dot; y_dot; z_dot; wx; wy; wz] =>
        pv <- matvec A (A1 [x; y; z; x_dot; y_dot; z_dot]) ;;
        p0 <- aidx pv 0 ;; p1 <- aidx pv 1 ;; p2 <- aidx pv 2 ;;
        p3 <- aidx pv 3 ;; p4 <- aidx pv 4 ;; p5 <- aidx pv 5 ;;
        let half := nlit 1 2 in
        let qd0 := nmul half (nadd (nsub (nmul q4 wx) (nmul q3 wy)) (nmul q2 wz)) in
        let qd1 := nmul half (nsub (nadd (nmul q3 wx) (nmul q4 wy)) (nmul q1 wz)) in
        let qd2 := nmul half (nadd (nadd (nmul (nneg q2) wx) (nmul q1 wy)) (nmul q4 wz)) in
        let qd3 := nmul half (nsub (nsub (nmul (nneg q1) wx) (nmul q2 wy)) (nmul q3 wz)) in
        let wd0 := nmul (ndiv z1 (m00 I)) (nmul (nmul (nsub (m11 I) (m22 I)) wy) wz) in
        let wd1 := nmul (ndiv z1 (m11 I)) (nmul (nmul (nsub (m22 I) (m00 I)) wx) wz) in
        let wd2 := nmul (ndiv z1 (m22 I)) (nmul (nmul (nsub (m00 I) (m11 I)) wx) wy) in
        Ok (A1 (map nf32 [p0; p1; p2; qd0; qd1; qd2; qd3; p3; p4; p5; wd0; wd1; wd2]))
    | A1 _ => Err ValueError
    end.

  (** SixDOFDynamics.state_transition_input (550-574). *)
  Definition sixdof_g (B : list (list T)) (I : mat3) (m : T) (body : bool) (s : arr T)
    : res (list (list T)) :=
    q1 <- aidx s 3 ;; q2 <- aidx s 4 ;; q3 <- aidx s 5 ;; q4 <- aidx s 6 ;;
    vel <- (if body then
              im <- pydiv z1 m ;;
              let q := (q1, q2, q3, q4) in
              let '(a0, a1, a2) := apply_quat (z1, z0, z0) q in
              let '(b0, b1, b2) := apply_quat (z0, z1, z0) q in
              let '(c0, c1, c2) := apply_quat (z0, z0, z1) q in
              Ok [[nmul im a0; nmul im b0; nmul im c0];
                  [nmul im a1; nmul im b1; nmul im c1];
                  [nmul im a2; nmul im b2; nmul im c2]]
            else Ok (firstn 3 (skipn 3 B))) ;;
    let z6 := [z0; z0; z0; z0; z0; z0] in
    let z3 := [z0; z0; z0] in
    Ok ([z6; z6; z6; z6; z6; z6; z6]
        ++ map (fun r => r ++ z3) vel
        ++ [z3 ++ [ndiv z1 (m00 I); z0; z0];
            z3 ++ [z0; ndiv z1 (m11 I); z0];
            z3 ++ [z0; z0; ndiv z1 (m22 I)]]).

  (** SixDOFDynamics.__init__ (436-508) with default state limits; [vel] are the three
      angular velocity limits. The angular acceleration limit is not used there. *)
  Definition sixdof_dyn (m : T) (I : mat3) (vel : T * T * T) (n : T) (body : bool)
             (samples : Z) (method : string) : res (dyn T) :=
    let '(v0, v1, v2) := vel in
    '(A, B) <- generate_cwh_matrices m n "3d" ;;
    _ <- py_assert (is_rect A (length A)) ;;
    _ <- py_assert (Nat.eqb (length A) (length B)) ;;
    Ok {| d_min := A1 [nninf; nninf; nninf; nninf; nninf; nninf; nninf; nninf; nninf; nninf;
                       nneg v0; nneg v1; nneg v2];
          d_max := A1 [npinf; npinf; npinf; npinf; npinf; npinf; npinf; npinf; npinf; npinf;
                       v0; v1; v2];
          d_wrap := None; d_use_jax := false; d_samples := samples;
          d_sdmin := no_min; d_sdmax := no_max; d_method := method;
          d_raw := affine_raw (sixdof_f A I) (sixdof_g B I m body) |}.

  (** Combined limit of one axis (185-186); inertia entries are numpy scalars, so the
      division is numpy's. *)
  Definition sixdof_limit (lim inertia_wheel wheel inertia : T) : T :=
    py_min lim (ndiv (nmul inertia_wheel wheel) inertia).

  Definition sixdof_control_map : list (string * nat) :=
    [("thrust_x", 0); ("thrust_y", 1); ("thrust_z", 2);
     ("moment_x", 3); ("moment_y", 4); ("moment_z", 5)]%string.

  (** The three elements of a validated limit argument (178-179). An array made from a
      Python list is uninitialised memory (see Utils.v); such a call is outside this
      constructor model and reported as ValueError. *)
  Definition limit3 (a : nd T) : res (T * T * T) :=
    match nd_data a with
    | Some [a0; a1; a2] => Ok (a0, a1, a2)
    | _ => Err ValueError
    end.

  (** SixDOFSpacecraft.__init__ and _build_state (158-217, 247-255). *)
  Definition sixdof_spacecraft (m : T) (I : mat3) (acc_lim vel_lim : numarg T)
             (inertia_wheel acc_wheel vel_wheel thrust_limit : T) (body : bool) (n : T)
             (samples : Z) (method : string)
             (x y z q1 q2 q3 q4 x_dot y_dot z_dot wx wy wz : T) : res (entity T) :=
    al <- number_list_to_np acc_lim [3] ;;
    vl <- number_list_to_np vel_lim [3] ;;
    '(a0, a1, a2) <- limit3 al ;;
    '(v0, v1, v2) <- limit3 vl ;;
    let ac0 := sixdof_limit a0 inertia_wheel acc_wheel (m00 I) in
    let ac1 := sixdof_limit a1 inertia_wheel acc_wheel (m11 I) in
    let ac2 := sixdof_limit a2 inertia_wheel acc_wheel (m22 I) in
    let vc0 := sixdof_limit v0 inertia_wheel vel_wheel (m00 I) in
    let vc1 := sixdof_limit v1 inertia_wheel vel_wheel (m11 I) in
    let vc2 := sixdof_limit v2 inertia_wheel vel_wheel (m22 I) in
    let limit := [thrust_limit; thrust_limit; thrust_limit;
                  nmul ac0 (m00 I); nmul ac1 (m11 I); nmul ac2 (m22 I)] in
    d <- sixdof_dyn m I (vc0, vc1, vc2) n body samples method ;;
    Ok (mk_entity d (A1 [z0; z0; z0; z0; z0; z0])
          (A1 (map (nmul (nZ (-1))) limit)) (A1 limit) (Some sixdof_control_map)
          (A1 (map nf32 [x; y; z; q1; q2; q3; q4; x_dot; y_dot; z_dot; wx; wy; wz]))).

  (** Accessors (331-366). [from_quat] normalises and raises ValueError on a zero
      quaternion (scipy 1.13). *)
  Definition sixdof_position (e : entity T) : res (arr T) :=
    x <- aidx (e_state e) 0 ;; y <- aidx (e_state e) 1 ;; z <- aidx (e_state e) 2 ;; Ok (A1 [x; y; z]).
  Definition sixdof_velocity (e : entity T) : res (arr T) :=
    x <- aidx (e_state e) 7 ;; y <- aidx (e_state e) 8 ;; z <- aidx (e_state e) 9 ;; Ok (A1 [x; y; z]).
  Definition sixdof_angular_velocity (e : entity T) : res (arr T) :=
    x <- aidx (e_state e) 10 ;; y <- aidx (e_state e) 11 ;; z <- aidx (e_state e) 12 ;; Ok (A1 [x; y; z]).
  Definition from_quat (a b c d : T) : res (T * T * T * T) :=
    let nrm := nsqrt (nadd (nadd (nadd (nmul a a) (nmul b b)) (nmul c c)) (nmul d d)) in
    if neqb nrm z0 then Err ValueError
    else Ok (ndiv a nrm, ndiv b nrm, ndiv c nrm, ndiv d nrm).
  Definition sixdof_quaternion (e : entity T) : res (arr T) :=
    a <- aidx (e_state e) 3 ;; b <- aidx (e_state e) 4 ;;
    c <- aidx (e_state e) 5 ;; d <- aidx (e_state e) 6 ;;
    '(qa, qb, qc, qd) <- from_quat a b c d ;;
    Ok (A1 [qa; qb; qc; qd]).
End SixDof.
Arguments mat3 T : clear implicits.
