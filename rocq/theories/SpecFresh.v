(** Vocabulary of C115: numpy's float32 functions. *)
From Coq Require Import ZArith Reals.
From Flocq Require Import Core.Core IEEE754.BinarySingleNaN.
From Verif Require Import Num Float64 SpecFly3 Fresh.
Local Open Scope R_scope.

(** The cast leaves it alone. *)
Definition is_f32 (a : f64) : Prop := is_finite a = true /\ f64_f32 a = a.

(** A library whose float32 sine and cosine are off by at most 2^-22 for finite float32 arguments (numpy's are
    about three times as good as this). *)
Definition accurate32 (m : libm32) : Prop := forall a : f64, is_f32 a ->
  (is_finite (cos32 m a) = true /\ Rabs (B2R (cos32 m a) - cos (B2R a)) <= bpow radix2 (-22)) /\
  (is_finite (sin32 m a) = true /\ Rabs (B2R (sin32 m a) - sin (B2R a)) <= bpow radix2 (-22)).

(** What the float32 derivative of one step of at most [H] seconds at a speed of at most [V] adds to the
    position error. *)
Definition first_error (H V : R) : R := H * (bpow radix2 (-20) * V + bpow radix2 (-140)).

(** A float32 tangent that is off by at most 2^-22 of its value, apart from underflow. *)
Definition accurate_tan32 (m : libm32) : Prop := forall a : f64, is_f32 a -> Rabs (tan (B2R a)) <= bpow radix2 100 ->
  is_finite (tan32 m a) = true /\ Rabs (B2R (tan32 m a) - tan (B2R a)) <= bpow radix2 (-22) * Rabs (tan (B2R a)) + bpow radix2 (-140).

(** What the float32 derivative of the first step adds in three dimensions: to the position, to the heading, and
    with the heading again to the position of every later step. *)
Definition first_move (H V : R) : R := H * (bpow radix2 (-19) * V + bpow radix2 (-147)).
Definition first_turn (H W : R) : R := H * (bpow radix2 (-19) * W + bpow radix2 (-100)).
Definition first_error3 (H V m c : R) (k : nat) : R :=
  first_move H V + first_turn H (turn_max m c) + INR k * (H * V * first_turn H (turn_max m c)).
