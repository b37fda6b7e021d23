(** Vocabulary of C114: the three-dimensional aircraft in binary64. *)
From Coq Require Import ZArith Reals List.
From Flocq Require Import Core.Core IEEE754.BinarySingleNaN.
From Verif Require Import Num Arr BaseModel Float64 SpecCwh SpecRound SpecFly.
Import List ListNotations.
Local Open Scope R_scope.

(** A tangent that is off by at most 2^-52 of its value, apart from underflow. *)
Definition accurate_tan (lm : libm) : Prop := forall a : f64, is_finite a = true -> Rabs (tan (B2R a)) <= bpow radix2 100 ->
  is_finite (lm_tan lm a) = true /\ Rabs (B2R (lm_tan lm a) - tan (B2R a)) <= bpow radix2 (-52) * Rabs (tan (B2R a)) + bpow radix2 (-1000).

(** Limits on flight path angle, roll and speed, and on the three commands. *)
Record limits3 := { g_lo : R; g_hi : R; b_lo : R; b_hi : R; s_lo : R; s_hi : R;
                    gr_lo : R; gr_hi : R; br_lo : R; br_hi : R; ac_lo : R; ac_hi : R }.
Record pose3 := { qx : R; qy : R; qz : R; qh : R; qg : R; qr : R; qv : R }.
(** One exact step of a coordinated turn: the vehicle moves along its nose (z points down), the heading turns
    at 32.17 / v tan(roll); flight path angle, roll and speed follow the commands within their limits. *)
Definition fly31 (L : limits3) (h ug ub ua : R) (p : pose3) : pose3 :=
  {| qx := qx p + h * (qv p * cos (qh p) * cos (qg p));
     qy := qy p + h * (qv p * sin (qh p) * cos (qg p));
     qz := qz p + h * (- qv p * sin (qg p));
     qh := qh p + h * (32.17 / qv p * tan (qr p));
     qg := clipR (g_lo L) (g_hi L) (qg p + h * clipR (gr_lo L) (gr_hi L) ug);
     qr := clipR (b_lo L) (b_hi L) (qr p + h * clipR (br_lo L) (br_hi L) ub);
     qv := clipR (s_lo L) (s_hi L) (qv p + h * clipR (ac_lo L) (ac_hi L) ua) |}.
Fixpoint fly3 (L : limits3) (p : pose3) (l : list (R * (R * R * R))) : pose3 :=
  match l with
  | [] => p
  | (h, (ug, ub, ua)) :: l' => fly3 L (fly31 L h ug ub ua p) l'
  end.

(** The binary64 state is within [E] of the exact one, the heading modulo whole turns. *)
Definition flies3 (E : R) (s : list f64) (p : pose3) : Prop :=
  match s with
  | [x; y; z; hd; ga; ro; v] =>
      Forall (fun a : f64 => is_finite a = true) s /\
      Rabs (B2R x - qx p) <= E /\ Rabs (B2R y - qy p) <= E /\ Rabs (B2R z - qz p) <= E /\
      angle_near E (B2R hd) (qh p) /\ Rabs (B2R ga - qg p) <= E /\ Rabs (B2R ro - qr p) <= E /\ Rabs (B2R v - qv p) <= E
  | _ => False
  end.

(** Rounding error of one step: coordinates up to [B], steps up to [H], speeds up to [V], heading rates up to
    [W] and commands up to [C]. *)
Definition step_error3 (B H V W C : R) : R :=
  bpow radix2 (-47) * (B + V + H * (V + W + C) + 13) + bpow radix2 (-699).
(** Speeds of at least [m] and roll angles whose cosine is at least [c]: bounds on the heading rate and on its
    sensitivity to speed and roll. *)
Definition turn_max (m c : R) : R := 32.17 / (m * c).
Definition turn_lip (m c : R) : R := 32.17 / (m * c) * (/ m + / c).
(** Error after [k] steps: it grows with the cube of the number of steps. *)
Definition fly3_error (B H V C m c : R) (k : nat) : R :=
  INR k * (1 + H * (1 + 2 * V + turn_lip m c) * INR k + H * H * V * turn_lip m c * (INR k * INR k)) * step_error3 B H V (turn_max m c) C.

(** Step size and the commands for flight path angle rate, roll rate and acceleration. *)
Definition fly3_act (p : f64 * (f64 * f64 * f64)) : f64 * action f64 :=
  (fst p, AArr (A1 [fst (fst (snd p)); snd (fst (snd p)); snd (snd p)])).
Definition fly3_num (p : f64 * (f64 * f64 * f64)) : R * (R * R * R) :=
  (B2R (fst p), (B2R (fst (fst (snd p))), B2R (snd (fst (snd p))), B2R (snd (snd p)))).
Definition fly3_ok (H : R) (p : f64 * (f64 * f64 * f64)) : Prop :=
  within 100 (fst p) /\ 0 <= B2R (fst p) <= H /\
  is_finite (fst (fst (snd p))) = true /\ is_finite (snd (fst (snd p))) = true /\ is_finite (snd (snd p)) = true.
