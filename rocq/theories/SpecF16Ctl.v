(** What the low level controller, the closed loop and the trim functions should do, on reals
    and independently of the code. *)
From Coq Require Import String List ZArith Reals.
From Flocq Require IEEE754.BinarySingleNaN.
From Verif Require Import PyBase Num XReal Float64 SpecF16.
Import ListNotations.
Local Open Scope R_scope.

Definition clamp (lo hi v : R) : R := Rmax lo (Rmin hi v).

(** Linear feedback around trim (angle of attack 0.0389 rad, elevator -0.7496 deg, throttle
    0.1395), saturated. [iz], [ips], [iny] are the integrator states. *)
Definition elevator (x : airframe) (iz : R) : R :=
  clamp (-25) 25 (-0.7496 + 156.8801506723475 * (a_alpha x - 0.0389)
                  + 31.037008068526642 * a_q x + 38.72983346216317 * iz).
Definition aileron (x : airframe) (ips iny : R) : R :=
  clamp (-21.5) 21.5 (- 37.84483 * a_beta x + 25.40956 * a_p x + 6.82876 * a_r x
                      + 332.88343 * ips + 17.15997 * iny).
Definition rudder (x : airframe) (ips iny : R) : R :=
  clamp (-30) 30 (23.91233 * a_beta x - 5.69968 * a_p x + 21.63431 * a_r x
                  - 64.49490 * ips + 88.36203 * iny).
Definition throttle (cmd : R) : R := clamp 0 1 (cmd + 0.1395).

Definition closed_state (x : airframe) (iz ips iny : R) (rest : list xr) : list xr :=
  state_of x ++ [Fin iz; Fin ips; Fin iny] ++ rest.

(** The trim state and control the gains were designed for. *)
Definition trim : airframe :=
  {| a_vt := 502; a_alpha := 0.0389; a_beta := 0; a_phi := 0; a_theta := 0.0389; a_psi := 0;
     a_p := 0; a_q := 0; a_r := 0; a_pn := 0; a_pe := 0; a_alt := 1000; a_pow := 9.0567 |}.
Definition trim_surfaces : surfaces :=
  {| s_thr := 0.1395; s_el := -0.7496; s_ail := 0; s_rdr := 0 |}.

Definition radians (d : R) : R := d * (PI / 180).

(** Roll rate about the stability axis at angle of attack [a]. *)
Definition stability_roll_rate (p r a : R) : R := p * cos a + r * sin a.

(** Throttle, elevator, aileron and rudder limits (degrees), on binary64 results. *)
Definition command_limits : list (R * R) := [(0, 1); (-25, 25); (-21.5, 21.5); (-30, 30)].
Definition inside (lh : R * R) (v : f64) : Prop :=
  BinarySingleNaN.is_finite v = true /\ fst lh <= BinarySingleNaN.B2R v <= snd lh.
(** A finite number of magnitude at most 2^500. *)
Definition moderate (v : f64) : Prop :=
  BinarySingleNaN.is_finite v = true /\ Rabs (BinarySingleNaN.B2R v) <= 2 ^ 500.
