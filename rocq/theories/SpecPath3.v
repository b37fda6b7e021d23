(** Vocabulary of C120: the path of an aircraft in coordinated turns. Nothing here is used by the model. *)
From Coq Require Import ZArith Reals List.
From Coquelicot Require Import Coquelicot.
From Verif Require Import SpecCwh SpecFly3.
Import List ListNotations.
Local Open Scope R_scope.

(** Flight path angle, roll and speed under constant commands, clipped to their limits: they change at a
    constant rate until they meet a limit and stay there. *)
Definition gamma_at (L : limits3) (ug : R) (p : pose3) (t : R) : R := clipR (g_lo L) (g_hi L) (qg p + t * clipR (gr_lo L) (gr_hi L) ug).
Definition roll_at (L : limits3) (ub : R) (p : pose3) (t : R) : R := clipR (b_lo L) (b_hi L) (qr p + t * clipR (br_lo L) (br_hi L) ub).
Definition speed_at (L : limits3) (ua : R) (p : pose3) (t : R) : R := clipR (s_lo L) (s_hi L) (qv p + t * clipR (ac_lo L) (ac_hi L) ua).
(** The heading turns at 32.17 / v tan(roll) all the time. *)
Definition head_at (L : limits3) (ub ua : R) (p : pose3) (t : R) : R :=
  qh p + RInt (fun s => 32.17 / speed_at L ua p s * tan (roll_at L ub p s)) 0 t.
(** The vehicle moves along its nose all the time (z points down). *)
Definition path31 (L : limits3) (h ug ub ua : R) (p : pose3) : pose3 :=
  {| qx := qx p + RInt (fun t => speed_at L ua p t * cos (head_at L ub ua p t) * cos (gamma_at L ug p t)) 0 h;
     qy := qy p + RInt (fun t => speed_at L ua p t * sin (head_at L ub ua p t) * cos (gamma_at L ug p t)) 0 h;
     qz := qz p + RInt (fun t => - speed_at L ua p t * sin (gamma_at L ug p t)) 0 h;
     qh := head_at L ub ua p h; qg := gamma_at L ug p h; qr := roll_at L ub p h; qv := speed_at L ua p h |}.
Fixpoint path3 (L : limits3) (p : pose3) (l : list (R * (R * R * R))) : pose3 :=
  match l with
  | [] => p
  | (h, (ug, ub, ua)) :: l' => path3 L (path31 L h ug ub ua p) l'
  end.

(** How fast the heading rate changes: accelerations up to [a], angular rates up to [q]. *)
Definition turn_jerk (m c a q : R) : R := turn_max m c * (a / m + q / c).
(** Error of the Euler method after [k] steps of at most [H] with speeds up to [V], for the heading and in all. *)
Definition head_error (H m c a q : R) (k : nat) : R := INR k * (turn_jerk m c a q * (H * H / 2)).
Definition path3_error (H V m c a q : R) (k : nat) : R :=
  head_error H m c a q k + INR k * ((a + V * (turn_max m c + q)) * (H * H / 2) + H * V * head_error H m c a q k).
