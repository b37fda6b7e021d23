(** Vocabulary of C122: many steps of a spacecraft in the orbital plane that thrusts in body axes. Nothing here is
    used by the model. *)
From Coq Require Import ZArith Reals List.
From Flocq Require Import Core.Core IEEE754.BinarySingleNaN.
From Verif Require Import Num Arr BaseModel Float64 SpecCwh SpecRound SpecFly.
Import List ListNotations.
Local Open Scope R_scope.

(** Mass, moment of inertia, limits of the angular acceleration, of the angular velocity and of the moment, mean
    motion of the chief. *)
Record ship := { s_mass : R; s_inertia : R; s_acc : R; s_vel : R; s_moment : R; s_n : R }.
Record stance := { tx : R; ty : R; tth : R; tvx : R; tvy : R; tw : R }.
(** One exact Euler step: the thrust is clipped to [-1, 1] and turned by the attitude, which is not wrapped; the angular
    velocity is kept within its limit. *)
Definition steer1 (S : ship) (h fx fy mz : R) (p : stance) : stance :=
  let fx := clipR (-1) 1 fx in let fy := clipR (-1) 1 fy in let mz := clipR (- s_moment S) (s_moment S) mz in
  {| tx := tx p + h * tvx p;
     ty := ty p + h * tvy p;
     tth := tth p + h * tw p;
     tvx := tvx p + h * (3 * s_n S ^ 2 * tx p + 2 * s_n S * tvy p + (cos (tth p) * fx - sin (tth p) * fy) / s_mass S);
     tvy := tvy p + h * (- 2 * s_n S * tvx p + (sin (tth p) * fx + cos (tth p) * fy) / s_mass S);
     tw := clipR (- s_vel S) (s_vel S) (tw p + h * clipR (- s_acc S) (s_acc S) (mz / s_inertia S)) |}.
(** A list of steps: size, thrust, moment. *)
Fixpoint steer (S : ship) (p : stance) (l : list (R * (R * R * R))) : stance :=
  match l with
  | [] => p
  | (h, (fx, fy, mz)) :: l' => steer S (steer1 S h fx fy mz p) l'
  end.

(** The binary64 state is within [E] of the exact one, the attitude modulo whole turns. *)
Definition steers (E : R) (s : list f64) (p : stance) : Prop :=
  match s with
  | [x; y; th; vx; vy; w] =>
      Forall (fun a : f64 => is_finite a = true) s /\
      Rabs (B2R x - tx p) <= E /\ Rabs (B2R y - ty p) <= E /\ angle_near E (B2R th) (tth p) /\
      Rabs (B2R vx - tvx p) <= E /\ Rabs (B2R vy - tvy p) <= E /\ Rabs (B2R w - tw p) <= E
  | _ => False
  end.
(** Everything but the attitude is at most [B]. *)
Definition sized (B : R) (p : stance) : Prop := Forall (fun a => Rabs a <= B) [tx p; ty p; tvx p; tvy p; tw p].

(** How strongly the rates depend on the state. *)
Definition steer_lip (m n : R) : R := 1 + 3 * n ^ 2 + 2 * Rabs n + 2 / Rabs m.
(** Error of one step: states up to [B], steps up to [H], angular accelerations up to [Q]. The rates are only known to
    single precision. *)
Definition step_single (B H K Q : R) : R :=
  bpow radix2 (-44) + bpow radix2 (-46) * B + bpow radix2 (-22) * (H * (K * B + Q)) + bpow radix2 (-140) * (1 + H).
(** Error after [k] steps. *)
Definition steer_error (B H K Q : R) (k : nat) : R := INR k * (1 + H * K) ^ k * step_single B H K Q.

(** A list of commands (step size, thrust, moment), for the simulator and for [steer]. *)
Definition steer_act (c : f64 * (f64 * f64 * f64)) : f64 * action f64 :=
  let '(h, (fx, fy, mz)) := c in (h, AArr (A1 [fx; fy; mz])).
Definition steer_num (c : f64 * (f64 * f64 * f64)) : R * (R * R * R) :=
  let '(h, (fx, fy, mz)) := c in (B2R h, (B2R fx, B2R fy, B2R mz)).
(** Step sizes from 0 to [H], finite commands. *)
Definition steer_ok (H : R) (c : f64 * (f64 * f64 * f64)) : Prop :=
  let '(h, (fx, fy, mz)) := c in
  within 90 h /\ 0 <= B2R h <= H /\ Forall (fun f : f64 => is_finite f = true) [fx; fy; mz].
