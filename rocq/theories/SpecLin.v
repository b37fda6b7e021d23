(** Vocabulary of C112: binary64 evaluation of linear dynamics, whatever the order of the additions. *)
From Coq Require Import ZArith Reals List Permutation.
From Flocq Require Import Core.Core IEEE754.BinarySingleNaN.
From Verif Require Import PyBase Num Arr BaseModel Float64 SpecRound.
Import List ListNotations.
Local Open Scope R_scope.

(** [v] is a binary64 sum of the numbers [l]: in any order, with any bracketing, with or without an
    accumulator that starts at zero. numpy does not say which of these [@] computes. *)
Inductive summed : list f64 -> f64 -> Prop :=
| sum_nil : summed [] (B754_zero false)
| sum_one a : summed [a] a
| sum_zero l a : summed l a -> summed l (Bplus mode_NE (B754_zero false) a)
| sum_two l l1 l2 a b : l1 <> [] -> l2 <> [] -> Permutation l (l1 ++ l2) -> summed l1 a -> summed l2 b ->
    summed l (Bplus mode_NE a b).

(** A right-hand side that computes [A @ s + B @ u] in some order. *)
Definition computes (f : f64 -> arr f64 -> arr f64 -> res (arr f64)) (A B : list (list f64)) : Prop :=
  forall t s u, length s = length A -> Forall (fun row => length row = length u) B ->
  exists r, f t (A1 s) (A1 u) = Ok (A1 r) /\ length r = length s /\
  forall i, (i < length s)%nat -> exists p q,
    summed (zipw (Bmult mode_NE) (nth i A []) s) p /\ summed (zipw (Bmult mode_NE) (nth i B []) u) q /\
    nth i r (B754_zero false) = Bplus mode_NE p q.

(** The exact inner product. *)
Definition rdot (a b : list R) : R := fold_right Rplus 0 (zipw Rmult a b).

(** Finite, and off by at most [k] units in the last place of [g], apart from underflow. *)
Definition nearly (k : nat) (a : f64) (t g : R) : Prop :=
  is_finite a = true /\ Rabs (B2R a - t) <= INR k * bpow radix2 (-52) * g + bpow radix2 (-500).

(** The new state [s'] agrees with the exact Euler step s + h (A s + B u). *)
Definition lin_agrees (A B : list (list R)) (h : R) (s u : list R) (s' : list f64) : Prop :=
  length s' = length s /\
  forall i, (i < length s)%nat ->
    nearly (Nat.max (length s) (length u) + 5) (nth i s' (B754_zero false))
      (nth i s 0 + h * (rdot (nth i A []) s + rdot (nth i B []) u))
      (Rabs (nth i s 0) + Rabs h * (rdot (map Rabs (nth i A [])) (map Rabs s) + rdot (map Rabs (nth i B [])) (map Rabs u))).

(** The sum of the absolute values of a row. *)
Definition asum (a : list R) : R := fold_right Rplus 0 (map Rabs a).

(** Error after [k] steps when every step makes a relative error of [p] and earlier errors grow by [q];
    [B] bounds the exact states, [c] the change by the controls in one step. *)
Definition lin_drift (p q B c : R) (k : nat) : R :=
  INR k * (q * (1 + p)) ^ k * (p * (q * B + c) + bpow radix2 (-500)).

(** Step sizes up to [H] and [n] finite control values. *)
Definition lin_proper (H : R) (n : nat) (a : f64 * list f64) : Prop :=
  within 100 (fst a) /\ Rabs (B2R (fst a)) <= H /\ length (snd a) = n /\ Forall (fun f => is_finite f = true) (snd a).
