(** Vocabulary of C118: the path of a vehicle that moves along its heading. Nothing here is used by the model. *)
From Coq Require Import ZArith Reals List.
From Coquelicot Require Import Coquelicot.
From Verif Require Import SpecCwh SpecFly.
Import List ListNotations.
Local Open Scope R_scope.

(** For a time [h] under constant commands, clipped to their limits: the heading turns at a constant rate,
    the speed changes at a constant rate until it meets a limit and stays there, and the vehicle moves
    along its heading all the time. *)
Definition path1 (L : limits) (h : R) (rate acc : R) (p : pose) : pose :=
  let head := fun t => phead p + t * clipR (r_lo L) (r_hi L) rate in
  let speed := fun t => clipR (v_lo L) (v_hi L) (pv p + t * clipR (a_lo L) (a_hi L) acc) in
  {| px := px p + RInt (fun t => speed t * cos (head t)) 0 h;
     py := py p + RInt (fun t => speed t * sin (head t)) 0 h;
     phead := head h; pv := speed h |}.
(** A list of commands, given by duration, heading rate and acceleration. *)
Fixpoint path (L : limits) (p : pose) (l : list (R * R * R)) : pose :=
  match l with
  | [] => p
  | ((h, rate), acc) :: l' => path L (path1 L h rate acc p) l'
  end.
