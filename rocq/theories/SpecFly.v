(** Vocabulary of C113: wrapping and flying in binary64. *)
From Coq Require Import ZArith Reals List.
From Flocq Require Import Core.Core IEEE754.BinarySingleNaN.
From Verif Require Import Num Arr BaseModel Float64 SpecCwh SpecRound.
Import List ListNotations.
Local Open Scope R_scope.

(** A mathematical library whose sine and cosine are off by at most 2^-52 for finite arguments. IEEE 754
    does not fix these functions; the libraries in use are about twice as good as this. *)
Definition accurate (lm : libm) : Prop := forall a : f64, is_finite a = true ->
  (is_finite (lm_cos lm a) = true /\ Rabs (B2R (lm_cos lm a) - cos (B2R a)) <= bpow radix2 (-52)) /\
  (is_finite (lm_sin lm a) = true /\ Rabs (B2R (lm_sin lm a) - sin (B2R a)) <= bpow radix2 (-52)).

(** [a] is within [E] of the angle [t], counting angles modulo whole turns of exactly 2 pi. *)
Definition angle_near (E : R) (a t : R) : Prop := exists k : Z, Rabs (a - (t + 2 * IZR k * PI)) <= E.

(** Limits on the speed, the heading rate and the acceleration. *)
Record limits := { v_lo : R; v_hi : R; r_lo : R; r_hi : R; a_lo : R; a_hi : R }.

(** One exact step of a vehicle that moves along its heading: commands are clipped, the speed is kept
    between its limits, and the heading is not wrapped. *)
Record pose := { px : R; py : R; phead : R; pv : R }.
Definition fly1 (L : limits) (h : R) (rate acc : R) (p : pose) : pose :=
  {| px := px p + h * (pv p * cos (phead p));
     py := py p + h * (pv p * sin (phead p));
     phead := phead p + h * clipR (r_lo L) (r_hi L) rate;
     pv := clipR (v_lo L) (v_hi L) (pv p + h * clipR (a_lo L) (a_hi L) acc) |}.
(** A list of steps, given by step size, heading rate and acceleration. *)
Fixpoint fly (L : limits) (p : pose) (l : list (R * R * R)) : pose :=
  match l with
  | [] => p
  | ((h, rate), acc) :: l' => fly L (fly1 L h rate acc p) l'
  end.

(** The binary64 state is within [E] of the exact one. *)
Definition flies (E : R) (s : list f64) (p : pose) : Prop :=
  match s with
  | [x; y; hd; v] =>
      Forall (fun a : f64 => is_finite a = true) s /\
      Rabs (B2R x - px p) <= E /\ Rabs (B2R y - py p) <= E /\ angle_near E (B2R hd) (phead p) /\ Rabs (B2R v - pv p) <= E
  | _ => False
  end.

(** Rounding error of one step: coordinates up to [B], steps up to [H], speeds up to [V], heading rates
    up to [R'] and accelerations up to [C]. *)
Definition step_error (B H V R' C : R) : R :=
  bpow radix2 (-48) * (B + V + H * (V + R' + C) + 13) + bpow radix2 (-700).
(** Error after [k] steps: it grows with the square of the number of steps, not exponentially. *)
Definition fly_error (B H V R' C : R) (k : nat) : R :=
  INR k * (1 + H * (1 + V) * INR k) * step_error B H V R' C.

(** A list of commands (step size, heading rate, acceleration), for the simulator and for [fly]. *)
Definition fly_act (p : f64 * f64 * f64) : f64 * action f64 := (fst (fst p), AArr (A1 [snd (fst p); snd p])).
Definition fly_num (p : f64 * f64 * f64) : R * R * R := (B2R (fst (fst p)), B2R (snd (fst p)), B2R (snd p)).
(** Step sizes from 0 to [H], finite commands. *)
Definition fly_ok (H : R) (p : f64 * f64 * f64) : Prop :=
  within 100 (fst (fst p)) /\ 0 <= B2R (fst (fst p)) <= H /\ is_finite (snd (fst p)) = true /\ is_finite (snd p) = true.

(** A wrapped element: elements with centre NaN are left alone; the others end in [-p, p], where [p] is the
    binary64 pi, a whole number of exact turns away, up to an error relative to the angle. *)
Definition wrapped (p : R) (c s s' : f64) : Prop :=
  if is_nan c then s' = s
  else is_finite s' = true /\ - p <= B2R s' <= p /\ angle_near (bpow radix2 (-51) * (Rabs (B2R s) + 8)) (B2R s') (B2R s).
