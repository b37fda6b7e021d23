(** Property C117: the simulated spacecraft follows the Clohessy-Wiltshire motion. *)
From Coq Require Import String ZArith Reals List.
From Flocq Require Import Core.Core IEEE754.BinarySingleNaN.
From Verif Require Import PyBase Num Arr BaseModel Cwh Float64 XTac SpecBase SpecRound SpecLong SpecOrbit OrbitRun OrbitRunEx.
Import List ListNotations.
Local Open Scope R_scope.

(** The program in binary64 against the physics, without reference to any other run of the model: from a
    start of size [W] (positions on the scale [L]), any steps of at most [H] with any finite thrust commands
    complete, and the computed state is within the rounding errors [drift] plus a method error proportional
    to [H] (for a fixed duration) of the closed-form motion under the saturated thrust, which is the only
    solution of the Clohessy-Wiltshire equations (C84). *)
Theorem C117_orbit : forall (lm : libm) (w : world f64) (m n : f64) samples (x y z vx vy vz : f64) L H W acts e,
  (samples <= 0)%Z -> is_finite m = true -> bpow radix2 (-100) <= Rabs (B2R m) -> within 50 n -> B2R n <> 0 -> 1 <= L -> 0 <= H -> 0 <= W ->
  let f := fun a : f64 => nf32 (Num := F64 lm) a in
  let q := 1 + H * (/ L + 3 * B2R n ^ 2 * L + 2 * Rabs (B2R n)) in
  let c := H / Rabs (B2R m) in
  let p := q + H ^ 2 * bend (B2R n) L in
  let d := c + H ^ 2 * kick (B2R m) (B2R n) L in
  let k := length acts in
  let B := q ^ k * (W + INR k * c) in
  let D := p ^ k * (W + INR k * d) in
  let s0 := map (fun a => B2R (f a)) [x; y; z; vx; vy; vz] in
  cwh_spacecraft (N := F64 lm) m n samples "Euler" x y z vx vy vz = Ok e ->
  Forall (fun a => is_finite (f a) = true) [x; y; z; vx; vy; vz] ->
  sized L W s0 -> Forall (proper H) acts -> L * (B + drift q B c k) <= bpow radix2 100 ->
  exists e' s', run (N := F64 lm) w e (acts64 acts) = Ok e' /\ e_state e' = A1 s' /\
    tracks_scaled L (drift q B c k + q ^ k * (INR k * (H ^ 2 * (bend (B2R n) L * D + kick (B2R m) (B2R n) L)))) s' (orbit (B2R m) (B2R n) s0 acts).
Proof. exact cwh_orbit. Qed.
Print Assumptions C117_orbit.

(** 12 kg in low Earth orbit, starting within 100 m and 0.1 m/s: after 1000 steps of at most 10 ms with any
    finite thrust commands, velocities are within 0.1 mm/s of the true motion and positions within 0.1 m. *)
Example C117_orbit_example : forall (lm : libm) (w : world f64) (x y z vx vy vz : f64) acts e,
  let f := fun a : f64 => nf32 (Num := F64 lm) a in
  let m := fl 12 1 in let n := fl 1027 1000000 in
  let s0 := map (fun a => B2R (f a)) [x; y; z; vx; vy; vz] in
  cwh_spacecraft (N := F64 lm) m n 0 "Euler" x y z vx vy vz = Ok e ->
  Forall (fun a => is_finite (f a) = true) [x; y; z; vx; vy; vz] ->
  sized 1000 (1 / 10) s0 -> Forall (proper (1 / 100)) acts -> length acts = 1000%nat ->
  exists e' s', run (N := F64 lm) w e (acts64 acts) = Ok e' /\ e_state e' = A1 s' /\
    tracks_scaled 1000 (/ 10 ^ 4) s' (orbit 12 (B2R n) s0 acts).
Proof. exact orbit_ex. Qed.
