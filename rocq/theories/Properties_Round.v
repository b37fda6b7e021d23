(** Property C106: binary64 steps agree with exact steps up to the last digits. *)
From Coq Require Import String ZArith Reals List.
From Flocq Require Import Core.Core IEEE754.BinarySingleNaN.
From Verif Require Import PyBase Num Arr BaseModel XReal Cwh Float64 XTac SpecCwh SpecRound SpecLong RoundCwh RoundRun RoundLong RoundLongEx.
Import List ListNotations.
Local Open Scope R_scope.

(** One step after any history: numbers up to 2^100 (a mass of at least 2^-100, a mean motion of at most
    2^50) and any finite thrust commands give a finite new state, every component of which is the exact
    Euler step of the Clohessy-Wiltshire equations with saturated thrust up to a relative error of 2^-48
    of the terms added. The library of elementary functions [lm] plays no role. *)
Theorem C106_step : forall (lm : libm) (w : world f64) m n samples x0 y0 z0 vx0 vy0 vz0 e0 acts e h x y z vx vy vz (fx fy fz : f64),
  cwh_spacecraft (N := F64 lm) m n samples "Euler" x0 y0 z0 vx0 vy0 vz0 = Ok e0 ->
  run (N := F64 lm) w e0 acts = Ok e -> (samples <= 0)%Z ->
  is_finite m = true -> bpow radix2 (-100) <= Rabs (B2R m) -> within 50 n -> within 100 h ->
  Forall (within 100) [x; y; z; vx; vy; vz] -> Forall (fun f : f64 => is_finite f = true) [fx; fy; fz] ->
  e_state e = A1 [x; y; z; vx; vy; vz] ->
  let o := entity_step (N := F64 lm) w e h (AArr (A1 [fx; fy; fz])) in
  exists s', o_res o = Ok tt /\ e_state (o_entity o) = A1 s' /\
  cwh_agrees (B2R m) (B2R n) (B2R h) (map B2R [x; y; z; vx; vy; vz]) (map (fun f => clipR (-1) 1 (B2R f)) [fx; fy; fz]) s'.
Proof. exact cwh_round_run. Qed.
Print Assumptions C106_step.

(** The state 0.1, 0, 0.7, 0.2, 0, 0 (rounded to binary32 by the constructor), 0.3 s, full thrust along x. *)
Example C106_step_example : forall w : world f64,
  (e <- cwh_spacecraft (N := F64 lm0) (fl 12 1) (fl 1027 1000000) 0 "Euler" (fl 1 10) (fl 0 1) (fl 7 10) (fl 2 10) (fl 0 1) (fl 0 1) ;;
   let o := entity_step (N := F64 lm0) w e (fl 3 10) (AArr (A1 [fl 1 1; fl 0 1; fl 0 1])) in
   _ <- o_res o ;; match e_state (o_entity o) with A1 l => Ok (map (fun a => B2SF a) l) | A0 _ => Err TypeError end) =
  Ok [SpecFloat.S754_finite false 5764607608933581 (-55); SpecFloat.S754_zero false;
      SpecFloat.S754_finite false 6305039370944512 (-53); SpecFloat.S754_finite false 8106482856696661 (-55);
      SpecFloat.S754_finite true 4546753547039836 (-65); SpecFloat.S754_finite true 8367772212723523 (-75)].
Proof. exact round_ex. Qed.

(** A whole run: the same program on the same numbers in binary64 and in exact arithmetic. If the exact
    run stays within [B], the binary64 run succeeds and follows it with an error of at most
    [drift q B c k] after [k] steps. *)
Theorem C106_run : forall (lm : libm) (w : world f64) (wr : world xr) (m n : f64) samples (x y z vx vy vz : f64) H B acts e er,
  (samples <= 0)%Z -> is_finite m = true -> bpow radix2 (-100) <= Rabs (B2R m) -> within 50 n -> 0 <= H -> 0 <= B ->
  let f := fun a : f64 => nf32 (Num := F64 lm) a in
  let g := fun a : f64 => Fin (B2R (f a)) in
  let q := 1 + H * (1 + 3 * B2R n ^ 2 + 2 * Rabs (B2R n)) in
  let c := H / Rabs (B2R m) in
  cwh_spacecraft (N := F64 lm) m n samples "Euler" x y z vx vy vz = Ok e ->
  cwh_spacecraft (N := XR Fin) (Fin (B2R m)) (Fin (B2R n)) samples "Euler" (g x) (g y) (g z) (g vx) (g vy) (g vz) = Ok er ->
  Forall (fun a => is_finite (f a) = true) [x; y; z; vx; vy; vz] ->
  Forall (proper H) acts -> stays wr er B (actsR acts) -> B + drift q B c (length acts) <= bpow radix2 100 ->
  exists e' er' s' r', run (N := F64 lm) w e (acts64 acts) = Ok e' /\ run (N := XR Fin) wr er (actsR acts) = Ok er' /\
    e_state e' = A1 s' /\ e_state er' = A1 (map Fin r') /\ tracks (drift q B c (length acts)) s' r'.
Proof. exact cwh_tracks_run. Qed.
Print Assumptions C106_run.

(** 100 steps with growth 1.01 per step and states up to 1000: less than 10^-8. *)
Example C106_run_example : drift (1 + 1 / 100) 1000 1 100 <= / 10 ^ 8.
Proof. exact drift_ex. Qed.

(** Long runs, with nothing assumed about the exact run. Positions are measured on a scale [L] of the user's
    choice (with [L] near 1/n the growth per step is about 1 + 6 n H, so that a thousand steps of one second
    lose few digits). From the size [W] of the initial state, the longest step [H] and the number of steps
    alone: the binary64 run succeeds, velocities follow the exact run within [drift q B c k] and positions
    within [L] times that. *)
Theorem C106_long : forall (lm : libm) (w : world f64) (wr : world xr) (m n : f64) samples (x y z vx vy vz : f64) L H W acts e er,
  (samples <= 0)%Z -> is_finite m = true -> bpow radix2 (-100) <= Rabs (B2R m) -> within 50 n -> 1 <= L -> 0 <= H -> 0 <= W ->
  let f := fun a : f64 => nf32 (Num := F64 lm) a in
  let g := fun a : f64 => Fin (B2R (f a)) in
  let q := 1 + H * (/ L + 3 * B2R n ^ 2 * L + 2 * Rabs (B2R n)) in
  let c := H / Rabs (B2R m) in
  let k := length acts in
  let B := q ^ k * (W + INR k * c) in
  cwh_spacecraft (N := F64 lm) m n samples "Euler" x y z vx vy vz = Ok e ->
  cwh_spacecraft (N := XR Fin) (Fin (B2R m)) (Fin (B2R n)) samples "Euler" (g x) (g y) (g z) (g vx) (g vy) (g vz) = Ok er ->
  Forall (fun a => is_finite (f a) = true) [x; y; z; vx; vy; vz] ->
  sized L W (map (fun a => B2R (f a)) [x; y; z; vx; vy; vz]) ->
  Forall (proper H) acts -> L * (B + drift q B c k) <= bpow radix2 100 ->
  exists e' er' s' r', run (N := F64 lm) w e (acts64 acts) = Ok e' /\ run (N := XR Fin) wr er (actsR acts) = Ok er' /\
    e_state e' = A1 s' /\ e_state er' = A1 (map Fin r') /\ tracks_scaled L (drift q B c k) s' r'.
Proof. exact cwh_long. Qed.
Print Assumptions C106_long.

(** 12 kg in low Earth orbit, starting within 10 km and 10 m/s: after 1000 steps of at most one second with
    any finite thrust commands, velocities are within 0.1 mm/s of the exact run and positions within 0.1 m. *)
Example C106_long_example : forall (lm : libm) (w : world f64) (wr : world xr) (x y z vx vy vz : f64) acts e er,
  let f := fun a : f64 => nf32 (Num := F64 lm) a in
  let g := fun a : f64 => Fin (B2R (f a)) in
  let m := fl 12 1 in let n := fl 1027 1000000 in
  cwh_spacecraft (N := F64 lm) m n 0 "Euler" x y z vx vy vz = Ok e ->
  cwh_spacecraft (N := XR Fin) (Fin (B2R m)) (Fin (B2R n)) 0 "Euler" (g x) (g y) (g z) (g vx) (g vy) (g vz) = Ok er ->
  Forall (fun a => is_finite (f a) = true) [x; y; z; vx; vy; vz] ->
  sized 1000 10 (map (fun a => B2R (f a)) [x; y; z; vx; vy; vz]) -> Forall (proper 1) acts -> length acts = 1000%nat ->
  exists e' er' s' r', run (N := F64 lm) w e (acts64 acts) = Ok e' /\ run (N := XR Fin) wr er (actsR acts) = Ok er' /\
    e_state e' = A1 s' /\ e_state er' = A1 (map Fin r') /\ tracks_scaled 1000 (/ 10 ^ 4) s' r'.
Proof. exact long_ex. Qed.
