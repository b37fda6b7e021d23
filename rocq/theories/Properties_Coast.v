(** Property C119: the simulated point masses follow the damped motion. *)
From Coq Require Import String ZArith Reals List.
From Flocq Require Import Core.Core IEEE754.BinarySingleNaN.
From Verif Require Import PyBase Num Arr BaseModel Cwh Integ Float64 XTac SpecCwh SpecInteg SpecGlide SpecRound SpecCoast CoastRun.
Import List ListNotations.
Local Open Scope R_scope.

(** The program in binary64 against the physics: steps of at most [H] with any finite commands complete, and on
    every axis position and velocity are within explicit bounds of the closed-form motion m v' = u - m c v under
    the saturated commands, which is the only solution of that equation (C93). The bounds add the rounding
    errors and a method error proportional to [H] (for a fixed duration). The product of damping and step size is
    at most one, so that earlier errors do not grow. *)
Theorem C119_coast (lm : libm) (w : world f64) (e : entity f64) (m c : f64) mode k samples (lo hi : f64) B H V A ps vs l :
  offered mode k -> integ_dyn (N := F64 lm) m c mode samples "Euler" = Ok (e_dyn e) -> (samples <= 0)%Z ->
  e_cmin e = A0 lo -> e_cmax e = A0 hi -> within 100 lo -> within 100 hi ->
  is_finite m = true -> bpow radix2 (-100) <= Rabs (B2R m) -> within 100 c -> 0 <= B2R c -> B2R c * H <= 1 -> 0 <= H ->
  Rabs (B2R lo / B2R m) <= A -> Rabs (B2R hi / B2R m) <= A ->
  e_state e = A1 (ps ++ vs) -> length ps = k -> length vs = k -> Forall (fun a : f64 => is_finite a = true) (ps ++ vs) ->
  Forall (coast_ok H k) l ->
  Forall (fun a : f64 => Rabs (B2R a) + INR (length l) * (H * V) + 1 <= B) ps ->
  Forall (fun a : f64 => Rabs (B2R a) + INR (length l) * (H * A) + 1 <= V) vs ->
  B <= bpow radix2 100 -> V <= bpow radix2 100 ->
  coast_p B H V (B2R c) A (length l) <= 1 -> coast_v B H V (B2R c) A (length l) <= 1 ->
  exists e' ps' vs', run (N := F64 lm) w e (acts64 l) = Ok e' /\ e_state e' = A1 (ps' ++ vs') /\ length ps' = k /\ length vs' = k /\
  forall i, (i < k)%nat ->
    let at_ (a : list f64) := nth i a (B754_zero false) in
    let g := coast (B2R m) (B2R c) (B2R (at_ ps), B2R (at_ vs)) (map (axis_force (B2R lo) (B2R hi) i) l) in
    is_finite (at_ ps') = true /\ is_finite (at_ vs') = true /\
    Rabs (B2R (at_ ps') - fst g) <= coast_p B H V (B2R c) A (length l) /\ Rabs (B2R (at_ vs') - snd g) <= coast_v B H V (B2R c) A (length l).
Proof. exact (coast_main lm w e m c mode k samples lo hi B H V A ps vs l). Qed.
Print Assumptions C119_coast.

(** Mass 2, damping 1/2, from (10, 100) with velocity (3, 4): after 100 steps of at most 10 ms, whatever the
    commands, the velocity is within 1/100 and the position within 1/20 of the damped motion. *)
Example C119_coast_example (lm : libm) (w : world f64) l : length l = 100%nat -> Forall (coast_ok (1 / 100) 2) l ->
  exists e e' ps vs, integrator2d_body (N := F64 lm) (fl 2 1) (fl 1 2) 0 "Euler" (fl 10 1) (fl 100 1) (fl 3 1) (fl 4 1) = Ok e /\
    run (N := F64 lm) w e (acts64 l) = Ok e' /\ e_state e' = A1 (ps ++ vs) /\
    forall i, (i < 2)%nat ->
      let g := coast 2 (1 / 2) (nth i [10; 100] 0, nth i [3; 4] 0) (map (axis_force (-1) 1 i) l) in
      Rabs (B2R (nth i ps (B754_zero false)) - fst g) <= 1 / 20 /\ Rabs (B2R (nth i vs (B754_zero false)) - snd g) <= 1 / 100.
Proof. exact (coast_ex lm w l). Qed.
Print Assumptions C119_coast_example.
Example C119_coast_commands : Forall (coast_ok (1 / 100) 2) (repeat (fl 1 128, [fl 5 1; fl (-1) 4]) 100).
Proof. exact coast_ok_ex. Qed.
