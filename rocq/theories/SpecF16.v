(** Rigid body equations of the F-16 model, stated on reals and independently of the code
    (Stevens and Lewis, Aircraft Control and Simulation). *)
From Coq Require Import String List ZArith Reals.
From Verif Require Import PyBase Num XReal Aero Morelli.
Import ListNotations.
Local Open Scope R_scope.

(** State of the airframe: airspeed, angle of attack, sideslip, roll, pitch, yaw (rad), body
    rates, north, east, altitude, engine power; control: throttle, elevator, aileron, rudder
    (degrees). *)
Record airframe : Type := {
  a_vt : R; a_alpha : R; a_beta : R; a_phi : R; a_theta : R; a_psi : R;
  a_p : R; a_q : R; a_r : R; a_pn : R; a_pe : R; a_alt : R; a_pow : R }.
Record surfaces : Type := { s_thr : R; s_el : R; s_ail : R; s_rdr : R }.

Definition state_of (x : airframe) : list xr :=
  map Fin [a_vt x; a_alpha x; a_beta x; a_phi x; a_theta x; a_psi x; a_p x; a_q x; a_r x;
           a_pn x; a_pe x; a_alt x; a_pow x].
Definition control_of (u : surfaces) : list xr := map Fin [s_thr u; s_el u; s_ail u; s_rdr u].

(** * Body velocity and rotation to north-east-down axes *)
Definition vec := (R * R * R)%type.
Definition body_velocity (x : airframe) : vec :=
  (a_vt x * cos (a_alpha x) * cos (a_beta x), a_vt x * sin (a_beta x),
   a_vt x * sin (a_alpha x) * cos (a_beta x)).
Definition rot_x (t : R) (v : vec) : vec :=
  let '(a, b, c) := v in (a, cos t * b - sin t * c, sin t * b + cos t * c).
Definition rot_y (t : R) (v : vec) : vec :=
  let '(a, b, c) := v in (cos t * a + sin t * c, b, - sin t * a + cos t * c).
Definition rot_z (t : R) (v : vec) : vec :=
  let '(a, b, c) := v in (cos t * a - sin t * b, sin t * a + cos t * b, c).
Definition to_earth (x : airframe) (v : vec) : vec :=
  rot_z (a_psi x) (rot_y (a_theta x) (rot_x (a_phi x) v)).

(** * Time derivative of the body velocity, by the product and chain rules *)
Definition velocity_rate (x : airframe) (vt' alpha' beta' : R) : vec :=
  let vt := a_vt x in let a := a_alpha x in let b := a_beta x in
  (vt' * cos a * cos b - vt * sin a * alpha' * cos b - vt * cos a * (sin b * beta'),
   vt' * sin b + vt * (cos b * beta'),
   vt' * sin a * cos b + vt * (cos a * alpha') * cos b - vt * sin a * (sin b * beta')).

(** Newton's law in rotating body axes: v' = F/m - omega x v, with gravity resolved by the
    attitude; [fx fy fz] is the specific force. *)
Definition newton (x : airframe) (fx fy fz : R) : vec :=
  let '(u, v, w) := body_velocity x in
  let p := a_p x in let q := a_q x in let r := a_r x in let g := 32.17 in
  (fx - g * sin (a_theta x) - (q * w - r * v),
   fy + g * cos (a_theta x) * sin (a_phi x) - (r * u - p * w),
   fz + g * cos (a_theta x) * cos (a_phi x) - (p * v - q * u)).

(** Body rates from Euler angle rates. *)
Definition rates_of (phi theta phi' theta' psi' : R) : vec :=
  (phi' - psi' * sin theta,
   theta' * cos phi + psi' * cos theta * sin phi,
   - theta' * sin phi + psi' * cos theta * cos phi).

(** Angular accelerations of Stevens and Lewis for rolling, pitching and yawing moment
    coefficients at dynamic pressure [qbar]; constants c1 .. c9 of the airframe, engine
    angular momentum 160 slug ft^2/s, area 300 ft^2, span 30 ft, chord 11.32 ft. *)
Definition rotation_rate (p q r qbar cl cm cn : R) : vec :=
  ((-0.77 * r + 0.02755 * p) * q + 300 * 30 * qbar * (0.0001055 * cl + 0.000001642 * cn)
     + 0.000001642 * 160 * q,
   0.9604 * p * r - 0.01759 * (p * p - r * r) + 0.00001792 * (300 * 11.32 * qbar * cm - 160 * r),
   (-0.7336 * p - 0.02755 * r) * q + 300 * 30 * qbar * (0.000001642 * cl + 0.00001587 * cn)
     + 0.00001587 * 160 * q).

(** Damping: coefficients are increased by the table values times the normalised rates. *)
Definition half_chord (x : airframe) : R := 11.32 / (2 * a_vt x).
Definition half_span (x : airframe) : R := 30 / (2 * a_vt x).

(** * Aerodynamic coefficients before damping, from the table and polynomial functions *)
Section Coefficients.
  Local Hint Extern 0 (Num xr) => exact (XR Fin) : typeclass_instances.
  Definition degrees (x : R) : xr := Fin (x * 57.29578).

  Definition stevens_coefficients (x : airframe) (u : surfaces) (c1 c2 c3 c4 c5 c6 : R) : Prop :=
    let a := degrees (a_alpha x) in let b := degrees (a_beta x) in let el := Fin (s_el u) in
    cx a el = Ok (Fin c1) /\ cy b (Fin (s_ail u)) (Fin (s_rdr u)) = Fin c2 /\
    cz a b el = Ok (Fin c3) /\ cm a el = Ok (Fin c5) /\
    (exists l la lr, cl a b = Ok (Fin l) /\ dlda a b = Ok (Fin la) /\ dldr a b = Ok (Fin lr) /\
       c4 = l + la * (s_ail u / 20) + lr * (s_rdr u / 30)) /\
    (exists n na nr, cn a b = Ok (Fin n) /\ dnda a b = Ok (Fin na) /\ dndr a b = Ok (Fin nr) /\
       c6 = n + na * (s_ail u / 20) + nr * (s_rdr u / 30)).

  (** The polynomial takes radians; the angles go through degrees, so they come back multiplied
      by 57.29578 pi / 180, which is not exactly 1. *)
  Definition morelli_coefficients (x : airframe) (u : surfaces) (c1 c2 c3 c4 c5 c6 : R) : Prop :=
    let rad d := Fin (d * PI / 180) in
    Morellif16 (rad (a_alpha x * 57.29578)) (rad (a_beta x * 57.29578)) (rad (s_el u))
      (rad (s_ail u)) (rad (s_rdr u)) (Fin (a_p x)) (Fin (a_q x)) (Fin (a_r x))
      (nlit 1132 100) (nZ 30) (Fin (a_vt x)) (nlit 35 100) (nlit 35 100)
    = (Fin c1, Fin c2, Fin c3, Fin c4, Fin c5, Fin c6).

  Definition coefficients (model : string) : airframe -> surfaces -> R -> R -> R -> R -> R -> R -> Prop :=
    if String.eqb model "stevens" then stevens_coefficients else morelli_coefficients.

  (** Damping derivatives, dynamic pressure and thrust at a state. *)
  Definition environment (x : airframe) (d : nat -> R) (Q t : R) : Prop :=
    dampp (degrees (a_alpha x)) = Ok (map (fun i => Fin (d i)) (seq 0 9)) /\
    exists mach, adc (Fin (a_vt x)) (Fin (a_alt x)) = (Fin mach, Fin Q) /\
      thrust (Fin (a_pow x)) (Fin (a_alt x)) (Fin mach) = Ok (Fin t).
End Coefficients.
