(** Vocabulary of C106: a binary64 number against the exact value. *)
From Coq Require Import ZArith Reals List.
From Flocq Require Import Core.Core IEEE754.BinarySingleNaN.
From Verif Require Import Num Arr BaseModel XReal Float64.
Import List ListNotations.
Local Open Scope R_scope.

(** [a] is finite and agrees with [t] to about 14 digits relative to the size [g] of the terms that
    were added up (48 of the 53 bits), apart from underflow. *)
Definition agrees (a : f64) (t g : R) : Prop :=
  is_finite a = true /\ Rabs (B2R a - t) <= bpow radix2 (-48) * g + bpow radix2 (-700).

(** A finite number of absolute value at most 2^k. *)
Definition within (k : Z) (a : f64) : Prop := is_finite a = true /\ Rabs (B2R a) <= bpow radix2 k.

(** The Euler step of the Clohessy-Wiltshire equations in exact arithmetic, and the sizes of the terms. *)
Definition cwh_agrees (m n h : R) (s f : list R) (new : list f64) : Prop :=
  match s, f, new with
  | [x; y; z; vx; vy; vz], [fx; fy; fz], [x'; y'; z'; vx'; vy'; vz'] =>
      agrees x' (x + h * vx) (Rabs x + Rabs h * Rabs vx) /\
      agrees y' (y + h * vy) (Rabs y + Rabs h * Rabs vy) /\
      agrees z' (z + h * vz) (Rabs z + Rabs h * Rabs vz) /\
      agrees vx' (vx + h * (3 * n ^ 2 * x + 2 * n * vy + fx / m))
        (Rabs vx + Rabs h * (3 * n ^ 2 * Rabs x + 2 * Rabs n * Rabs vy + Rabs fx / Rabs m)) /\
      agrees vy' (vy + h * (- 2 * n * vx + fy / m)) (Rabs vy + Rabs h * (2 * Rabs n * Rabs vx + Rabs fy / Rabs m)) /\
      agrees vz' (vz + h * (- n ^ 2 * z + fz / m)) (Rabs vz + Rabs h * (n ^ 2 * Rabs z + Rabs fz / Rabs m))
  | _, _, _ => False
  end.

(** Every number of the binary64 list is finite and within [E] of its exact counterpart. *)
Definition tracks (E : R) (a : list f64) (r : list R) : Prop :=
  Forall2 (fun x t => is_finite x = true /\ Rabs (B2R x - t) <= E) a r.

(** Error after [k] steps: every step adds its rounding errors, and earlier errors grow by [q]. [B] bounds
    the exact states, [c] the velocity change by thrust in one step. *)
Definition drift (q B c : R) (k : nat) : R :=
  INR k * (q * (1 + bpow radix2 (-48))) ^ k * (bpow radix2 (-48) * (q * B + c) + bpow radix2 (-700)).

(** The same list of steps and thrust commands, for the two arithmetics. *)
Definition acts64 (l : list (f64 * list f64)) : list (f64 * action f64) :=
  map (fun p => (fst p, AArr (A1 (snd p)))) l.
Definition actsR (l : list (f64 * list f64)) : list (xr * action xr) :=
  map (fun p => (Fin (B2R (fst p)), AArr (A1 (map Fin (map B2R (snd p)))))) l.

(** Step sizes up to [H] and three finite thrust commands. *)
Definition proper (H : R) (p : f64 * list f64) : Prop :=
  within 100 (fst p) /\ Rabs (B2R (fst p)) <= H /\ length (snd p) = 3%nat /\ Forall (fun f => is_finite f = true) (snd p).

(** The exact run stays within [B] after every number of steps. *)
Definition stays (w : world xr) (e : entity xr) (B : R) (l : list (xr * action xr)) : Prop :=
  forall k e', run (N := XR Fin) w e (firstn k l) = PyBase.Ok e' ->
    exists r, e_state e' = A1 (map Fin r) /\ Forall (fun t => Rabs t <= B) r.
