(** Specification vocabulary: closed-form motion of a damped point mass under a constant
    force. Nothing here is used by the model. *)
From Coq Require Import List Reals.
From Verif Require Import Arr.
Import ListNotations.
Local Open Scope R_scope.

(** Velocity and position of one axis after the time [t]: mass m, damping c, force u. *)
Definition glide_v (m c v u t : R) : R :=
  if Req_EM_T c 0 then v + u / m * t else v * exp (- c * t) + u / (m * c) * (1 - exp (- c * t)).
Definition glide_p (m c p v u t : R) : R :=
  if Req_EM_T c 0 then p + v * t + u / (2 * m) * t^2
  else p + u / (m * c) * t + (v - u / (m * c)) * (1 - exp (- c * t)) / c.

(** All axes: positions, then velocities. *)
Definition glide (m c : R) (ps vs us : list R) (t : R) : list R :=
  zipw (fun p vu => glide_p m c p (fst vu) (snd vu) t) ps (combine vs us) ++ zipw (fun v u => glide_v m c v u t) vs us.
