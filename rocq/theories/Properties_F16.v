(** Properties C56-C61, C67 and C75-C79: the F-16 airframe, its controller and trim functions. *)
From Coq Require Import String List ZArith Reals Lra Lia Bool.
From Flocq Require Import Core.Core IEEE754.BinarySingleNaN.
From Verif Require Import PyBase Num XReal Float64 Aero Morelli F16 F16Mem SpecAero SpecF16 SpecF16Ctl
  SpecMorelli SpecTrim F16Lemmas F16Lemmas2 F16Props F16Sym F16Ctl F16MemLemmas F64Bound F16CtlProps
  MorelliLemmas F16Trim F16Total F16Examples.
Import List ListNotations.
Local Open Scope R_scope.
Local Hint Extern 0 (Num f64) => match goal with lm : libm |- _ => exact (F64 lm) end
  : typeclass_instances.
Local Hint Extern 0 (Num xr) => exact (XR Fin) : typeclass_instances.

(** * C56 Low level controller *)

(** Binary64, every state: each output is in its limits or nan.
    Missing: that no output is nan, which is false. *)
Theorem C56_limits_or_nan_partial :
  forall (lm : libm) (u_ref st xc ud : list f64),
    get_u_deg u_ref st = Ok (xc, ud) ->
    Forall2 (fun lh v => is_nan v = true \/ inside lh v) command_limits ud.
Proof. exact controller_limits. Qed.
Print Assumptions C56_limits_or_nan_partial.

(** When the entries that are read have magnitude at most 2^500, no output is nan.
    Missing: larger entries, where it is false. *)
Theorem C56_limits_moderate_partial :
  forall (lm : libm) (u_ref st : list f64),
    (16 <= length st)%nat -> (4 <= length u_ref)%nat ->
    moderate (nth 3 u_ref (B754_nan : f64)) ->
    (forall i, In i [1; 7; 13; 2; 6; 8; 14; 15]%nat -> moderate (nth i st (B754_nan : f64))) ->
    exists xc ud, get_u_deg u_ref st = Ok (xc, ud) /\ Forall2 inside command_limits ud.
Proof. exact controller_bounded. Qed.
Print Assumptions C56_limits_moderate_partial.

(** Not for all finite states: huge opposite terms overflow and cancel to nan. *)
Theorem C56_limits_refuted :
  forall lm : libm, exists u_ref st xc ud,
    Forall (fun v : f64 => is_finite v = true) (u_ref ++ st) /\
    get_u_deg u_ref st = Ok (xc, ud) /\ is_nan (nth 1 ud (B754_zero false : f64)) = true.
Proof. exact controller_nan. Qed.
Print Assumptions C56_limits_refuted.

(** Exact arithmetic, every finite state: the saturated linear feedback; the elevator reads only the
    longitudinal variables, aileron and rudder only the lateral ones. *)
Theorem C56_feedback :
  forall (x : airframe) (iz ips iny : R) (rest u_ref : list xr) (cmd : R),
    (4 <= length u_ref)%nat -> nth 3 u_ref NaN = Fin cmd ->
    get_u_deg u_ref (closed_state x iz ips iny rest)
    = Ok (map Fin [a_alpha x - 0.0389; a_q x; iz; a_beta x; a_p x; a_r x; ips; iny],
          map Fin [throttle cmd; elevator x iz; aileron x ips iny; rudder x ips iny]).
Proof. exact get_u_deg_fin. Qed.
Print Assumptions C56_feedback.

(** At trim the trim control comes out, exactly and in binary64. *)
Theorem C56_trim :
  forall (rest : list xr) (nz ps ny : R),
    get_u_deg (map Fin [nz; ps; ny; 0]) (closed_state trim 0 0 0 rest)
    = Ok (map Fin [0; 0; 0; 0; 0; 0; 0; 0], control_of trim_surfaces).
Proof. exact controller_trim. Qed.
Print Assumptions C56_trim.

Theorem C56_trim_f64 :
  forall lm : libm,
    let st : list f64 := [nZ 502; nlit 389 10000; n0; n0; nlit 389 10000; n0; n0; n0; n0; n0; n0;
      nZ 1000; nlit 90567 10000; n0; n0; n0] in
    exists xc ud, get_u_deg [n0; n0; n0; n0] st = Ok (xc, ud) /\
      map B2SF ud = map B2SF [nlit 1395 10000; nlit (-7496) 10000; n0; n0 : f64].
Proof. exact controller_trim_f64. Qed.
Print Assumptions C56_trim_f64.

(** On a memory of arrays: nothing that existed before the call changes, neither the state and
    reference passed in nor the trim arrays shared by all controllers; the results are new arrays. *)
Theorem C56_arguments_kept :
  forall (lm : libm) (H : mem (T := f64)) (pu px pxe pue : nat),
    (pu < length H)%nat -> (px < length H)%nat -> (pxe < length H)%nat -> (pue < length H)%nat ->
    rd H pxe = xequil -> rd H pue = uequil ->
    exists new r, get_u_deg_mem H pu px pxe pue = (H ++ new, r) /\
      match get_u_deg (rd H pu) (rd H px) with
      | Err e => r = Err e
      | Ok (xc, ud) => exists pc pv, r = Ok (pc, pv) /\ (length H <= pc)%nat /\ (length H <= pv)%nat /\
          pc <> pv /\ rd (H ++ new) pc = xc /\ rd (H ++ new) pv = ud
      end.
Proof. intros lm. exact get_u_deg_mem_spec. Qed.
Print Assumptions C56_arguments_kept.

(** Angle of attack 0.1 rad, throttle command 5: elevator and throttle; then a saturated rudder. *)
Example C56_example :
  get_u_deg (map Fin [0; 0; 0; 5]) (closed_state (nose_up 0.1) 0 0 0 [])
  = Ok (map Fin [0.0611; 0; 0; 0; 0; 0; 0; 0],
        map Fin [1; -0.7496 + 156.8801506723475 * 0.0611; 0; 0]).
Proof. exact C56_ex. Qed.
Example C56_example_saturated :
  get_u_deg (map Fin [0; 0; 0; -1]) (closed_state trim 0 0 1 [])
  = Ok (map Fin [0; 0; 0; 0; 0; 0; 0; 1], map Fin [0; -0.7496; 17.15997; 30]).
Proof. exact C56_ex2. Qed.

(** * C57 Closed loop *)

(** Any arithmetic, every input for which it returns: shape of the result. *)
Theorem C57_structure :
  forall (lm : libm) (x u : list f64) model v2 xd urad nz ps nyr,
    controlled_f16 x u model v2 = Ok (xd, urad, nz, ps, nyr) ->
    exists xc ud xm ny az ay,
      get_u_deg u x = Ok (xc, ud) /\
      subf16_model (firstn 13 x) ud model true = Ok (xm, nz, ny, az, ay) /\
      length xm = 13%nat /\ length x = length xd /\ (16 <= length x)%nat /\ length u = 4%nat /\
      xd = xm ++ [nsub nz (nth 0 u n0); nsub ps (nth 1 u n0); nsub nyr (nth 2 u n0)]
              ++ repeat n0 (length x - 16) /\
      urad = nth 0 ud n0 :: map (fun i => nmul (nth i ud n0) (ndiv npi (nZ 180))) [1; 2; 3]%nat ++ firstn 3 u /\
      (if v2 then
         exists c s, m_cos (nth 1 xm n0) = Ok c /\ m_sin (nth 1 xm n0) = Ok s /\
           ps = nadd (nmul (nth 6 xm n0) c) (nmul (nth 8 xm n0) s) /\ nyr = nadd ny (nth 8 xm n0)
       else
         exists c s, m_cos (nth 0 xc n0) = Ok c /\ m_sin (nth 0 xc n0) = Ok s /\
           ps = nadd (nmul (nth 4 xc n0) c) (nmul (nth 5 xc n0) s) /\ nyr = nadd ny (nth 5 xc n0)).
Proof. intros lm. exact controlled_structure. Qed.
Print Assumptions C57_structure.

(** Exact arithmetic: it returns for every finite moving state off the vertical, and the roll rate is about an axis at the
    angle of attack measured from trim (0.0389 rad), not about the stability axis.
    Missing: the stability axis, which is not the one used. *)
Theorem C57_roll_rate_partial :
  forall x iz ips iny rest rnz rps rny cmd model,
    known_model model = true -> cos (a_theta x) <> 0 -> a_vt x <> 0 -> cos (a_beta x) <> 0 ->
    a_alt x < 142247 ->
    exists xd nz ny az ay,
      subf16_model (state_of x)
        (map Fin [throttle cmd; elevator x iz; aileron x ips iny; rudder x ips iny]) model true
        = Ok (xd, Fin nz, Fin ny, Fin az, Fin ay) /\
      controlled_f16 (closed_state x iz ips iny rest) (map Fin [rnz; rps; rny; cmd]) model false
        = Ok (xd ++ map Fin [nz - rnz; stability_roll_rate (a_p x) (a_r x) (a_alpha x - 0.0389) - rps;
                             ny + a_r x - rny] ++ repeat (Fin (0 / 1)) (length rest),
              map Fin [throttle cmd; radians (elevator x iz); radians (aileron x ips iny);
                       radians (rudder x ips iny); rnz; rps; rny],
              Fin nz, Fin (stability_roll_rate (a_p x) (a_r x) (a_alpha x - 0.0389)),
              Fin (ny + a_r x)).
Proof. exact controlled_fin. Qed.
Print Assumptions C57_roll_rate_partial.

Theorem C57_roll_rate_refuted :
  exists x xd urad nz nyr ps,
    controlled_f16 (closed_state x 0 0 0 []) (map Fin [0; 0; 0; 0]) "morelli" false
      = Ok (xd, urad, nz, Fin ps, nyr) /\
    ps <> stability_roll_rate (a_p x) (a_r x) (a_alpha x).
Proof. exists yawing. exact roll_rate_off. Qed.
Print Assumptions C57_roll_rate_refuted.

(** An 18-entry state gives an 18-entry derivative ending in two zeros. *)
Example C57_example : exists xd urad nz ps nyr,
  controlled_f16 (closed_state trim 0 0 0 [Fin 7; Fin 8]) (map Fin [1; 2; 3; 0]) "stevens" false
    = Ok (xd, urad, Fin nz, Fin ps, nyr) /\
  length xd = 18%nat /\ nth 13 xd NaN = Fin (nz - 1) /\ nth 14 xd NaN = Fin (0 - 2) /\
  nth 17 xd NaN = Fin (0 / 1) /\ urad = map Fin [0.1395; radians (-0.7496); radians 0; radians 0; 1; 2; 3].
Proof. exact C57_ex. Qed.

(** * C58 Navigation *)
Theorem C58_navigation :
  forall x u model adj, known_model model = true -> cos (a_theta x) <> 0 ->
  exists out n e h,
    subf16_model (state_of x) (control_of u) model adj = Ok out /\
    comp out 9 = Fin n /\ comp out 10 = Fin e /\ comp out 11 = Fin h /\
    to_earth x (body_velocity x) = (n, e, - h) /\
    n * n + e * e + h * h = a_vt x * a_vt x.
Proof. exact f16_nav. Qed.
Print Assumptions C58_navigation.

(** Wings level, sideslip free, climbing 0.1 rad. *)
Example C58_example : exists out,
  subf16_model (state_of climbing) (control_of idle) "morelli" true = Ok out /\
  comp out 11 = Fin (500 * sin (0.3 - 0.2)).
Proof. exact C58_ex. Qed.

(** * C59 Forces and C76 moments *)
Theorem C59_forces :
  forall x u model adj, known_model model = true -> cos (a_theta x) <> 0 ->
  a_vt x <> 0 -> cos (a_beta x) <> 0 -> a_alt x < 142247 ->
  exists c1 c2 c3 c4 c5 c6 d Q t xd nz ny zo yo v' a' b' fx fy fz p' q' r',
    coefficients model x u c1 c2 c3 c4 c5 c6 /\ environment x d Q t /\
    subf16_model (state_of x) (control_of u) model adj = Ok (xd, Fin nz, Fin ny, Fin zo, Fin yo) /\
    length xd = 13%nat /\
    nth 0 xd NaN = Fin v' /\ nth 1 xd NaN = Fin a' /\ nth 2 xd NaN = Fin b' /\
    nth 6 xd NaN = Fin p' /\ nth 7 xd NaN = Fin q' /\ nth 8 xd NaN = Fin r' /\
    nth 12 xd NaN = pdot (Fin (a_pow x)) (tgear (Fin (s_thr u))) /\
    velocity_rate x v' a' b' = newton x fx fy fz /\
    fx = 0.00157 * (300 * Q * (c1 + half_chord x * a_q x * d 0%nat) + t) /\
    fy = 0.00157 * (300 * Q * (c2 + half_span x * (d 1%nat * a_r x + d 2%nat * a_p x))) /\
    fz = 0.00157 * (300 * Q * (c3 + half_chord x * a_q x * d 3%nat)) /\
    (p', q', r') = rotation_rate (a_p x) (a_q x) (a_r x) Q
      (c4 + half_span x * (d 4%nat * a_r x + d 5%nat * a_p x))
      (c5 + half_chord x * a_q x * d 6%nat)
      (c6 + half_span x * (d 7%nat * a_r x + d 8%nat * a_p x)) /\
    zo = fz - 15 * q' /\ yo = fy + (if adj then 15 * r' else 0) /\
    nz = - zo / 32.17 - 1 /\ ny = yo / 32.17.
Proof. exact f16_equations. Qed.
Print Assumptions C59_forces.

(** The same equations, moments and accelerometer outputs alone. *)
Theorem C76_moments :
  forall x u model adj, known_model model = true -> cos (a_theta x) <> 0 ->
  a_vt x <> 0 -> cos (a_beta x) <> 0 -> a_alt x < 142247 ->
  exists c1 c2 c3 c4 c5 c6 d Q t xd nz ny az ay p' q' r' fz fy,
    coefficients model x u c1 c2 c3 c4 c5 c6 /\ environment x d Q t /\
    subf16_model (state_of x) (control_of u) model adj = Ok (xd, Fin nz, Fin ny, Fin az, Fin ay) /\
    nth 6 xd NaN = Fin p' /\ nth 7 xd NaN = Fin q' /\ nth 8 xd NaN = Fin r' /\
    (p', q', r') = rotation_rate (a_p x) (a_q x) (a_r x) Q
      (c4 + half_span x * (d 4%nat * a_r x + d 5%nat * a_p x))
      (c5 + half_chord x * a_q x * d 6%nat)
      (c6 + half_span x * (d 7%nat * a_r x + d 8%nat * a_p x)) /\
    fz = 0.00157 * (300 * Q * (c3 + half_chord x * a_q x * d 3%nat)) /\
    fy = 0.00157 * (300 * Q * (c2 + half_span x * (d 1%nat * a_r x + d 2%nat * a_p x))) /\
    az = fz - 15 * q' /\ ay = fy + (if adj then 15 * r' else 0) /\
    nz = - az / 32.17 - 1 /\ ny = ay / 32.17.
Proof. exact f16_moments. Qed.
Print Assumptions C76_moments.

(** Level symmetric flight: the airspeed changes by the axial force, alpha by the normal one. *)
Example C59_example : exists xd nz ny az ay c1 c3 Q t a' v',
  subf16_model (state_of cruising) (control_of idle) "stevens" true
    = Ok (xd, Fin nz, Fin ny, Fin az, Fin ay) /\
  cx (Fin (0 * 57.29578)) (Fin 0) = Ok (Fin c1) /\ cz (Fin (0 * 57.29578)) (Fin (0 * 57.29578)) (Fin 0) = Ok (Fin c3) /\
  0 < Q /\ nth 0 xd NaN = Fin v' /\ nth 1 xd NaN = Fin a' /\
  v' = 0.00157 * (300 * Q * c1 + t) /\ 500 * a' = 0.00157 * (300 * Q * c3) + 32.17.
Proof. exact C59_ex. Qed.
(** Without aerodynamic moment (dynamic pressure 0) a pure pitch rate rolls and yaws the airframe
    through the engine's angular momentum. *)
Example C76_example : rotation_rate 0 1 0 0 0 0 0 = (0.00026272, 0, 0.0025392).
Proof. exact C76_ex. Qed.

(** * C60 Symmetric flight *)
Theorem C60_symmetric :
  forall x u model adj, known_model model = true -> cos (a_theta x) <> 0 ->
  a_vt x <> 0 -> a_alt x < 142247 ->
  a_beta x = 0 -> a_phi x = 0 -> a_p x = 0 -> a_q x = 0 -> a_r x = 0 ->
  s_ail u = 0 -> s_rdr u = 0 ->
  exists xd nz az,
    subf16_model (state_of x) (control_of u) model adj = Ok (xd, Fin nz, Fin 0, Fin az, Fin 0) /\
    map (fun i => nth i xd NaN) [2; 3; 5; 6; 8]%nat = repeat (Fin 0) 5.
Proof. exact f16_symmetric. Qed.
Print Assumptions C60_symmetric.

Example C60_example : exists xd nz az,
  subf16_model (state_of trim) (control_of trim_surfaces) "morelli" true
    = Ok (xd, Fin nz, Fin 0, Fin az, Fin 0) /\
  map (fun i => nth i xd NaN) [2; 3; 5; 6; 8]%nat = repeat (Fin 0) 5.
Proof. exact C60_ex. Qed.

(** * C61 Polynomial aerodynamics *)

(** [morelli]: the published polynomials; [within lo hi]: saturation, limits in degrees. *)
Theorem C61_polynomial :
  forall a b de da dr p q r cbar bb V xcg xcgr, V <> 0 -> bb <> 0 ->
  Morellif16 (Fin a) (Fin b) (Fin de) (Fin da) (Fin dr) (Fin p) (Fin q) (Fin r) (Fin cbar)
    (Fin bb) (Fin V) (Fin xcg) (Fin xcgr)
  = fin6 (morelli (within (-10) 45 a) (within (-30) 30 b) (within (-25) 25 de)
      (within (-21.5) 21.5 da) (within (-30) 30 dr) p q r cbar bb V xcg xcgr).
Proof. exact morelli_poly. Qed.
Print Assumptions C61_polynomial.

Theorem C61_saturates :
  forall a b de da dr p q r cbar bb V xcg xcgr, V <> 0 -> bb <> 0 ->
  Morellif16 (Fin a) (Fin b) (Fin de) (Fin da) (Fin dr) (Fin p) (Fin q) (Fin r) (Fin cbar)
    (Fin bb) (Fin V) (Fin xcg) (Fin xcgr)
  = Morellif16 (Fin (within (-10) 45 a)) (Fin (within (-30) 30 b)) (Fin (within (-25) 25 de))
      (Fin (within (-21.5) 21.5 da)) (Fin (within (-30) 30 dr)) (Fin p) (Fin q) (Fin r) (Fin cbar)
      (Fin bb) (Fin V) (Fin xcg) (Fin xcgr).
Proof. exact morelli_saturates. Qed.
Print Assumptions C61_saturates.

Theorem C61_symmetric :
  forall a de q cbar bb V xcg xcgr, V <> 0 -> bb <> 0 ->
  exists c1 c3 c5,
  Morellif16 (Fin a) (Fin 0) (Fin de) (Fin 0) (Fin 0) (Fin 0) (Fin q) (Fin 0) (Fin cbar)
    (Fin bb) (Fin V) (Fin xcg) (Fin xcgr)
  = (Fin c1, Fin 0, Fin c3, Fin 0, Fin c5, Fin 0).
Proof. exact morelli_symmetric. Qed.
Print Assumptions C61_symmetric.

(** At angle of attack 0, no rates: the constant terms. Beyond 45 degrees: the value at 45. *)
Example C61_example :
  Morellif16 (Fin 0) (Fin 0) (Fin 0) (Fin 0) (Fin 0) (Fin 0) (Fin 0) (Fin 0) (Fin 11.32)
    (Fin 30) (Fin 500) (Fin 0.35) (Fin 0.35)
  = (Fin (-0.01943367), Fin 0, Fin (-0.1378278), Fin 0, Fin (-0.0202937), Fin 0) /\
  within (-10) 45 2 = 45 * PI / 180 /\ within (-10) 45 0.5 = 0.5.
Proof. exact C61_ex. Qed.

(** * C67 Trim *)
Theorem C67_constraints :
  forall k c x u,
    conf16 (state_of x) (control_of u) (const_of c k)
    = Ok (state_of (constrained k c (s_thr u) x)).
Proof. exact conf16_fin. Qed.
Print Assumptions C67_constraints.

Theorem C67_cost :
  forall s x u k c model adj,
  let y := constrained k c (s_thr (candidate_surfaces s u)) (candidate_state s x) in
  let v := candidate_surfaces s u in
  (1 <= k <= 4)%Z -> -1 <= q_singamma c <= 1 ->
  known_model model = true -> cos (a_theta y) <> 0 ->
  a_vt y <> 0 -> cos (a_beta y) <> 0 -> a_alt y < 142247 ->
  exists d nz ny az ay J,
    subf16_model (state_of y) (control_of v) model adj
    = Ok (state_of d, Fin nz, Fin ny, Fin az, Fin ay) /\
    clf16 (candidate_vec s) (state_of x) (control_of u) (const_of c k) model adj
    = Ok (Fin J, state_of y, control_of v) /\
    J = scaled (penalty (residuals k c y d)) /\ 0 <= J /\
    (J = 0 <-> Forall (fun wr => snd wr = 0) (residuals k c y d)).
Proof. exact clf16_cost. Qed.
Print Assumptions C67_cost.

Theorem C67_unknown_rejected :
  forall s x u c model adj, (k_orient c < 1 \/ 4 < k_orient c)%Z ->
    is_ok (clf16 (T := xr) s x u c model adj) = false.
Proof. exact clf16_unknown. Qed.
Print Assumptions C67_unknown_rejected.

(** [conf16] itself accepts any orientation. *)
Theorem C67_conf16_unknown_refuted :
  exists k c x u, (k < 1 \/ 4 < k)%Z /\ is_ok (conf16 (state_of x) (control_of u) (const_of c k)) = true.
Proof. exact conf16_unknown. Qed.
Print Assumptions C67_conf16_unknown_refuted.

(** A climbing turn request as a coordinated turn: heading rate 0.3 at zero bank and pitch. *)
Example C67_example :
  conf16 (state_of cruising) (control_of trim_surfaces) (const_of turning 3)
  = Ok (map Fin [500; 0; 0; 0; 0; 0; 0; 0; 0.3; 0; 0; 0; 64.94 * 0.1395]).
Proof. exact C67_ex. Qed.

(** * C75 Attitude kinematics *)
Theorem C75_euler_angles :
  forall x u model adj, known_model model = true -> cos (a_theta x) <> 0 ->
  exists out phi' theta' psi',
    subf16_model (state_of x) (control_of u) model adj = Ok out /\
    comp out 3 = Fin phi' /\ comp out 4 = Fin theta' /\ comp out 5 = Fin psi' /\
    rates_of (a_phi x) (a_theta x) phi' theta' psi' = (a_p x, a_q x, a_r x).
Proof. exact f16_kin. Qed.
Print Assumptions C75_euler_angles.

(** Pitching wings level: only the pitch angle moves. *)
Example C75_example : exists out,
  subf16_model (state_of pitching) (control_of idle) "stevens" true = Ok out /\
  comp out 3 = Fin 0 /\ comp out 4 = Fin 1 /\ comp out 5 = Fin 0.
Proof. exact C75_ex. Qed.

(** * C77 Domain of the derivative *)
(** Missing: vertical attitude and rest, where it is false; other altitudes. *)
Theorem C77_finite_partial :
  forall x u model adj, known_model model = true -> cos (a_theta x) <> 0 ->
  a_vt x <> 0 -> cos (a_beta x) <> 0 -> a_alt x < 142247 ->
  exists d nz ny az ay,
    subf16_model (state_of x) (control_of u) model adj
    = Ok (state_of d, Fin nz, Fin ny, Fin az, Fin ay).
Proof. exact f16_all. Qed.
Print Assumptions C77_finite_partial.

(** Pointing straight up the tangent of the pitch angle raises. *)
Theorem C77_vertical_refuted :
  exists x, forall u model adj, known_model model = true ->
    subf16_model (state_of x) (control_of u) model adj = Err ZeroDivisionError.
Proof. exact vertical_raises. Qed.
Print Assumptions C77_vertical_refuted.

(** At rest the derivative of the airspeed is nan. *)
Theorem C77_at_rest_refuted :
  forall x u model adj, known_model model = true -> cos (a_theta x) <> 0 -> a_vt x = 0 ->
  exists xd nz ny az ay, subf16_model (state_of x) (control_of u) model adj = Ok (xd, nz, ny, az, ay) /\
    nth 0 xd (Fin 0) = NaN.
Proof. exact subf16_at_rest. Qed.
Print Assumptions C77_at_rest_refuted.

Example C77_example : exists d nz ny az ay,
  subf16_model (state_of cruising) (control_of idle) "morelli" false
  = Ok (state_of d, Fin nz, Fin ny, Fin az, Fin ay) /\ a_pn d = 500 /\ a_pe d = 0.
Proof. exact C77_ex. Qed.

(** * C78 Damping of the polynomial model *)

(** The normal specific force is not the polynomial coefficient's: the table damping is added to
    a coefficient that already contains its pitch rate term. *)
Theorem C78_damped_once_refuted :
  exists x u, forall adj,
  exists c1 c2 c3 c4 c5 c6 d Q t xd nz ny az ay q',
    morelli_coefficients x u c1 c2 c3 c4 c5 c6 /\ environment x d Q t /\
    subf16_model (state_of x) (control_of u) "morelli" adj
      = Ok (xd, nz, ny, Fin az, ay) /\ nth 7 xd NaN = Fin q' /\
    az + 15 * q' <> 0.00157 * (300 * Q * c3).
Proof. exists pitching, idle. exact morelli_damped_twice. Qed.
Print Assumptions C78_damped_once_refuted.

(** Without rates the force is the polynomial's.
    Missing: states with rates, where it is false. *)
Theorem C78_no_rates_partial :
  forall x u adj, cos (a_theta x) <> 0 -> a_vt x <> 0 -> cos (a_beta x) <> 0 -> a_alt x < 142247 ->
  a_p x = 0 -> a_q x = 0 -> a_r x = 0 ->
  exists c1 c2 c3 c4 c5 c6 d Q t xd nz ny az ay q',
    morelli_coefficients x u c1 c2 c3 c4 c5 c6 /\ environment x d Q t /\
    subf16_model (state_of x) (control_of u) "morelli" adj
      = Ok (xd, nz, ny, Fin az, ay) /\ nth 7 xd NaN = Fin q' /\
    az + 15 * q' = 0.00157 * (300 * Q * c3).
Proof. exact morelli_no_rates. Qed.
Print Assumptions C78_no_rates_partial.

Example C78_example : half_chord pitching * a_q pitching = 0.01132.
Proof. exact C78_ex. Qed.

(** * C79 The trim constraints fly the requested condition *)
Theorem C79_turn :
  forall c thr x u model adj, known_model model = true -> cos (a_theta x) <> 0 ->
  exists out, subf16_model (state_of (constrained 3 c thr x)) (control_of u) model adj = Ok out /\
    comp out 3 = Fin 0 /\ comp out 4 = Fin 0 /\ comp out 5 = Fin (q_turn c).
Proof. exact turn_kinematics. Qed.
Print Assumptions C79_turn.

Theorem C79_pull_up :
  forall c thr x u model adj, known_model model = true -> cos (a_alpha x) <> 0 -> q_bank c = 0 ->
  exists out, subf16_model (state_of (constrained 4 c thr x)) (control_of u) model adj = Ok out /\
    comp out 4 = Fin (q_pull c) /\ comp out 5 = Fin 0.
Proof. exact pull_kinematics. Qed.
Print Assumptions C79_pull_up.

(** Without sideslip and bank, level flight and pull up start level and a climb climbs at its
    flight path angle. *)
Theorem C79_climb :
  forall k c thr x u model adj, known_model model = true -> q_bank c = 0 -> a_beta x = 0 ->
  (k = 1%Z \/ k = 2%Z \/ k = 4%Z) ->
  let g := if Z.eqb k 2 then q_gamma c else 0 in
  cos (a_alpha x + g) <> 0 ->
  exists out, subf16_model (state_of (constrained k c thr x)) (control_of u) model adj = Ok out /\
    comp out 11 = Fin (a_vt x * sin g).
Proof. exact level_climb. Qed.
Print Assumptions C79_climb.

Example C79_example : exists out,
  subf16_model (state_of (constrained 3 turning 0.5 cruising)) (control_of idle) "morelli" true = Ok out /\
  comp out 5 = Fin 0.3.
Proof. exact C79_ex. Qed.
