(** Property C112: rounding errors of linear dynamics. *)
From Coq Require Import String ZArith Reals List.
From Flocq Require Import Core.Core IEEE754.BinarySingleNaN.
From Verif Require Import PyBase Num Arr BaseModel XReal Cwh Integ Float64 XTac SpecCwh SpecInteg SpecRound SpecLin LinRound LinRun LinInteg.
Import List ListNotations.
Local Open Scope R_scope.

(** Any matrices A and B that BaseLinearODESolverDynamics accepts, of up to 100 states and 100 controls
    with numbers up to 2^100: one Euler step gives a finite state within max(n, m) + 5 units in the last
    place of the exact step s + h (A s + B u) with saturated controls u. *)
Theorem C112_step : forall (lm : libm) (w : world f64) (e : entity f64) (A B : list (list f64)) samples lo hi h s l,
  linear_dyn (N := F64 lm) A B samples "Euler" = Ok (e_dyn e) -> (samples <= 0)%Z ->
  e_cmin e = A0 lo -> e_cmax e = A0 hi -> within 100 lo -> within 100 hi -> within 100 h ->
  Forall (Forall (within 100)) A -> Forall (Forall (within 100)) B ->
  length A = length s -> Forall (fun r => length r = length l) B ->
  (length s <= 100)%nat -> (length l <= 100)%nat ->
  Forall (within 100) s -> Forall (fun f : f64 => is_finite f = true) l -> e_state e = A1 s ->
  let o := entity_step (N := F64 lm) w e h (AArr (A1 l)) in
  exists s', o_res o = Ok tt /\ e_state (o_entity o) = A1 s' /\
    lin_agrees (map (map B2R) A) (map (map B2R) B) (B2R h) (map B2R s) (map (fun f => clipR (B2R lo) (B2R hi) (B2R f)) l) s'.
Proof. exact lin_round_step. Qed.
Print Assumptions C112_step.

(** The bound does not depend on the order in which numpy adds up the products: it holds for every
    right-hand side that [computes] A @ s + B @ u in some order. *)
Theorem C112_any_order : forall (lm : libm) (w : world f64) (e : entity f64) (A B : list (list f64)) samples d lo hi h s l,
  linear_dyn (N := F64 lm) A B samples "Euler" = Ok d -> (samples <= 0)%Z ->
  d_min (e_dyn e) = d_min d -> d_max (e_dyn e) = d_max d -> d_sdmin (e_dyn e) = d_sdmin d -> d_sdmax (e_dyn e) = d_sdmax d ->
  d_wrap (e_dyn e) = d_wrap d -> d_method (e_dyn e) = d_method d -> d_samples (e_dyn e) = d_samples d ->
  computes (d_raw (e_dyn e)) A B ->
  e_cmin e = A0 lo -> e_cmax e = A0 hi -> within 100 lo -> within 100 hi -> within 100 h ->
  Forall (Forall (within 100)) A -> Forall (Forall (within 100)) B ->
  length A = length s -> Forall (fun r => length r = length l) B ->
  (length s <= 100)%nat -> (length l <= 100)%nat ->
  Forall (within 100) s -> Forall (fun f : f64 => is_finite f = true) l -> e_state e = A1 s ->
  let o := entity_step (N := F64 lm) w e h (AArr (A1 l)) in
  exists s', o_res o = Ok tt /\ e_state (o_entity o) = A1 s' /\
    lin_agrees (map (map B2R) A) (map (map B2R) B) (B2R h) (map B2R s) (map (fun f => clipR (B2R lo) (B2R hi) (B2R f)) l) s'.
Proof. exact lin_round. Qed.
Print Assumptions C112_any_order.

(** The order matters for the numbers: 10^16 + 1 - 10^16 is 0 or 1. *)
Example C112_order : exists l v w, summed l v /\ summed l w /\ B2SF v = SpecFloat.S754_zero false /\ B2SF w = B2SF (fl 1 1).
Proof. exact order_ex. Qed.

(** An oscillator x'' = -x/2 + u defined by a user: 0.1 s from (1, 0.3), the command 5 saturated at 2. *)
Example C112_step_example : forall w : world f64,
  (d <- linear_dyn (N := F64 lm0) [[fl 0 1; fl 1 1]; [fl (-1) 2; fl 0 1]] [[fl 0 1]; [fl 1 1]] 0 "Euler" ;;
   let e := mk_entity (N := F64 lm0) d (A1 [fl 0 1]) (A0 (fl (-2) 1)) (A0 (fl 2 1)) None (A1 [fl 1 1; fl 3 10]) in
   let o := entity_step (N := F64 lm0) w e (fl 1 10) (AArr (A1 [fl 5 1])) in
   _ <- o_res o ;; match e_state (o_entity o) with A1 l => Ok (map (fun a => B2SF a) l) | A0 _ => Err TypeError end) =
  Ok [B2SF (fl 103 100); B2SF (fl 45 100)].
Proof. exact lin_ex. Qed.

(** The point-mass dynamics in one, two and three dimensions, in terms of the mass and the damping the
    user gives (1/m is itself rounded): 11 units in the last place. *)
Theorem C112_integrator : forall (lm : libm) (w : world f64) (e : entity f64) (m c : f64) mode k samples lo hi h ps vs l,
  offered mode k -> integ_dyn (N := F64 lm) m c mode samples "Euler" = Ok (e_dyn e) -> (samples <= 0)%Z ->
  e_cmin e = A0 lo -> e_cmax e = A0 hi -> within 100 lo -> within 100 hi -> within 100 h ->
  is_finite m = true -> bpow radix2 (-100) <= Rabs (B2R m) -> within 100 c ->
  length ps = k -> length vs = k -> length l = k ->
  Forall (within 100) ps -> Forall (within 100) vs -> Forall (fun f : f64 => is_finite f = true) l -> e_state e = A1 (ps ++ vs) ->
  let o := entity_step (N := F64 lm) w e h (AArr (A1 l)) in
  exists ps' vs', o_res o = Ok tt /\ e_state (o_entity o) = A1 (ps' ++ vs') /\ length ps' = k /\ length vs' = k /\
  forall i, (i < k)%nat ->
    let p := B2R (nth i ps (B754_zero false)) in let v := B2R (nth i vs (B754_zero false)) in
    let u := clipR (B2R lo) (B2R hi) (B2R (nth i l (B754_zero false))) in
    nearly 11 (nth i ps' (B754_zero false)) (p + B2R h * v) (Rabs p + Rabs (B2R h) * Rabs v) /\
    nearly 11 (nth i vs' (B754_zero false)) (v + B2R h * (- B2R c * v + u / B2R m))
      (Rabs v + Rabs (B2R h) * (Rabs (B2R c) * Rabs v + Rabs u / Rabs (B2R m))).
Proof. exact integ_round. Qed.
Print Assumptions C112_integrator.

(** A whole run against the same run in exact arithmetic: as long as the exact states stay within [Bd],
    the binary64 run succeeds and stays within [lin_drift]. [KA] and [KB] bound the rows of A and B, [U]
    the control limits, [H] the step sizes. *)
Theorem C112_run : forall (lm : libm) (w : world f64) (wr : world xr) (A B : list (list f64)) samples (lo hi : f64) H KA KB U Bd m acts
    (e : entity f64) (er : entity xr) s,
  linear_dyn (N := F64 lm) A B samples "Euler" = Ok (e_dyn e) ->
  linear_dyn (N := XR Fin) (map (map Fin) (map (map B2R) A)) (map (map Fin) (map (map B2R) B)) samples "Euler" = Ok (e_dyn er) ->
  (samples <= 0)%Z -> e_cmin e = A0 lo -> e_cmax e = A0 hi -> e_cmin er = A0 (Fin (B2R lo)) -> e_cmax er = A0 (Fin (B2R hi)) ->
  within 100 lo -> within 100 hi -> Rabs (B2R lo) <= U -> Rabs (B2R hi) <= U ->
  Forall (Forall (within 100)) A -> Forall (Forall (within 100)) B ->
  Forall (fun a => asum (map B2R a) <= KA) A -> Forall (fun a => asum (map B2R a) <= KB) B -> 0 <= KA -> 0 <= KB ->
  length A = length s -> Forall (fun a => length a = m) B -> (length s <= 100)%nat -> (m <= 100)%nat -> 0 <= H -> 0 <= Bd ->
  e_state e = A1 s -> e_state er = A1 (map Fin (map B2R s)) -> Forall (fun a : f64 => is_finite a = true) s ->
  let p := INR (Nat.max (length s) m + 5) * bpow radix2 (-52) in
  let q := 1 + H * KA in
  let c := H * (KB * U) in
  Forall (lin_proper H m) acts -> stays wr er Bd (actsR acts) -> Bd + lin_drift p q Bd c (length acts) <= bpow radix2 100 ->
  exists e' er' s' r', run (N := F64 lm) w e (acts64 acts) = Ok e' /\ run (N := XR Fin) wr er (actsR acts) = Ok er' /\
    e_state e' = A1 s' /\ e_state er' = A1 (map Fin r') /\ tracks (lin_drift p q Bd c (length acts)) s' r'.
Proof. exact lin_tracks. Qed.
Print Assumptions C112_run.

(** Six states, three controls, growth 1.01 per step, states up to 1000: less than 10^-8 after 100 steps. *)
Example C112_run_example : lin_drift (INR (Nat.max 6 3 + 5) * bpow radix2 (-52)) (1 + 1 / 100) 1000 1 100 <= / 10 ^ 8.
Proof. exact lin_drift_ex. Qed.
