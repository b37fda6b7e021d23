(** Property C120: the simulated aircraft in three dimensions follows the true path. *)
From Coq Require Import String ZArith Reals List.
From Coquelicot Require Import Coquelicot.
From Flocq Require Import Core.Core IEEE754.BinarySingleNaN.
From Verif Require Import PyBase Num Arr BaseModel Dubins SpecBase SpecCwh Float64 XTac SpecRound SpecFly SpecFly3 SpecPath3 Path3Run.
Import List ListNotations.
Local Open Scope R_scope.

(** What the specification means: the vehicle of [path31] moves along its nose at its speed and turns at
    32.17 / v tan(roll); flight path angle, roll and speed follow the clipped commands strictly within their limits. *)
Theorem C120_moves L ug ub ua p h : 0 < s_lo L <= s_hi L -> - (PI / 2) < b_lo L -> b_lo L <= b_hi L -> b_hi L < PI / 2 ->
  let at_ := fun t => path31 L t ug ub ua p in let r := at_ h in
  is_derive (fun t => qx (at_ t)) h (qv r * cos (qh r) * cos (qg r)) /\
  is_derive (fun t => qy (at_ t)) h (qv r * sin (qh r) * cos (qg r)) /\
  is_derive (fun t => qz (at_ t)) h (- qv r * sin (qg r)) /\
  is_derive (fun t => qh (at_ t)) h (32.17 / qv r * tan (qr r)) /\
  (g_lo L < qg p + h * clipR (gr_lo L) (gr_hi L) ug < g_hi L -> is_derive (fun t => qg (at_ t)) h (clipR (gr_lo L) (gr_hi L) ug)) /\
  (b_lo L < qr p + h * clipR (br_lo L) (br_hi L) ub < b_hi L -> is_derive (fun t => qr (at_ t)) h (clipR (br_lo L) (br_hi L) ub)) /\
  (s_lo L < qv p + h * clipR (ac_lo L) (ac_hi L) ua < s_hi L -> is_derive (fun t => qv (at_ t)) h (clipR (ac_lo L) (ac_hi L) ua)).
Proof. exact (path3_moves L ug ub ua p h). Qed.
Print Assumptions C120_moves.
(** A coordinated turn at 321.7 ft/s with a roll of 45 degrees turns by a tenth of a radian per second: after
    a quarter turn the aircraft is one turning radius ahead and one to the side. *)
Example C120_moves_example : let L := {| g_lo := -1; g_hi := 1; b_lo := -1; b_hi := 1; s_lo := 200; s_hi := 400; gr_lo := -1; gr_hi := 1; br_lo := -1; br_hi := 1; ac_lo := -100; ac_hi := 100 |} in
  path31 L (5 * PI) 0 0 0 {| qx := 0; qy := 0; qz := -500; qh := 0; qg := 0; qr := PI / 4; qv := 321.7 |} =
    {| qx := 3217; qy := 3217; qz := -500; qh := PI / 2; qg := 0; qr := PI / 4; qv := 321.7 |}.
Proof. exact path3_moves_ex. Qed.
Print Assumptions C120_moves_example.

(** The program in binary64 against that path, without reference to any other run of the model. The hypotheses
    are those of C114, with accelerations up to [a] and angular rates up to [q], and the start is within the
    limits. The computed state is within the rounding errors of C114 plus the error of the Euler method, which is
    proportional to [H] for a fixed duration. *)
Theorem C120_path (lm : libm) (w : world f64) v_min v_max g_min g_max r_min r_max gr_min gr_max rr_min rr_max acc_min acc_max samples B H V C A m c a q
    xc yc zc hdc gac roc vc x0 y0 z0 hd0 ga0 ro0 v0 l :
  accurate lm -> accurate_tan lm -> (samples <= 0)%Z ->
  Forall (fun a : f64 => is_finite (f64_f32 a) = true) [v_min; v_max; g_min; g_max; r_min; r_max] ->
  Forall (fun a : f64 => is_finite a = true) [x0; y0; z0; hd0; ga0; ro0; v0] ->
  Forall (SpecRound.within 100) [gr_min; gr_max; rr_min; rr_max; acc_min; acc_max] ->
  Forall (fun a : f64 => m <= B2R a <= V) [f64_f32 v_min; f64_f32 v_max; v0] ->
  Forall (fun a : f64 => Rabs (B2R a) <= 2) [f64_f32 g_min; f64_f32 g_max; ga0] ->
  Forall (fun a : f64 => Rabs (B2R a) <= A) [f64_f32 r_min; f64_f32 r_max; ro0] ->
  Forall (fun a : f64 => Rabs (B2R a) <= C) [gr_min; gr_max; rr_min; rr_max; acc_min; acc_max] ->
  bpow radix2 (-100) <= m -> bpow radix2 (-100) <= c -> A + 1 / 1024 <= PI -> c <= cos (A + 1 / 1024) ->
  0 <= H -> Forall (fly3_ok H) l ->
  Forall (fun a : f64 => Rabs (B2R a) + INR (length l) * (H * V) + 1 <= B) [x0; y0; z0; hd0] ->
  B <= bpow radix2 99 -> V <= bpow radix2 99 -> fly3_error B H V C m c (length l) <= 1 ->
  Forall (fun b : f64 => Rabs (B2R b) <= q) [gr_min; gr_max; rr_min; rr_max] -> Forall (fun b : f64 => Rabs (B2R b) <= a) [acc_min; acc_max] ->
  let f (a : f64) := B2R (f64_f32 a) in
  f v_min <= B2R v0 <= f v_max -> f g_min <= B2R ga0 <= f g_max -> f r_min <= B2R ro0 <= f r_max ->
  let L := {| g_lo := f g_min; g_hi := f g_max; b_lo := f r_min; b_hi := f r_max; s_lo := f v_min; s_hi := f v_max;
              gr_lo := B2R gr_min; gr_hi := B2R gr_max; br_lo := B2R rr_min; br_hi := B2R rr_max;
              ac_lo := B2R acc_min; ac_hi := B2R acc_max |} in
  let p := {| qx := B2R x0; qy := B2R y0; qz := B2R z0; qh := B2R hd0; qg := B2R ga0; qr := B2R ro0; qv := B2R v0 |} in
  let ac := dubins3d_aircraft (N := F64 lm) samples "Euler" v_min v_max g_min g_max r_min r_max gr_min gr_max rr_min rr_max acc_min acc_max xc yc zc hdc gac roc vc in
  exists e s, run (N := F64 lm) w (set_state ac (A1 [x0; y0; z0; hd0; ga0; ro0; v0])) (map fly3_act l) = Ok e /\
    e_state e = A1 s /\ flies3 (fly3_error B H V C m c (length l) + path3_error H V m c a q (length l)) s (path3 L p (map fly3_num l)).
Proof.
  exact (fly3_path lm w v_min v_max g_min g_max r_min r_max gr_min gr_max rr_min rr_max acc_min acc_max samples B H V C A m c a q
    xc yc zc hdc gac roc vc x0 y0 z0 hd0 ga0 ro0 v0 l).
Qed.
Print Assumptions C120_path.
(** A hundred steps of at most 10 ms, whatever the commands: within 5 feet of the true path. *)
Example C120_path_example (lm : libm) (w : world f64) l : accurate lm -> accurate_tan lm -> length l = 100%nat -> Forall (fly3_ok (1 / 100)) l ->
  let a := dubins3d_aircraft (N := F64 lm) 0 "Euler" (fl 200 1) (fl 400 1) (fl (-1) 1) (fl 1 1) (fl (-1) 1) (fl 1 1)
    (fl (-1) 1) (fl 1 1) (fl (-1) 1) (fl 1 1) (fl (-100) 1) (fl 100 1) (fl 0 1) (fl 0 1) (fl 0 1) (fl 0 1) (fl 0 1) (fl 0 1) (fl 200 1) in
  exists e s, run (N := F64 lm) w (set_state a (A1 [fl 1000 1; fl 500 1; fl (-500) 1; fl 3 1; fl 1 1; fl (-1) 1; fl 250 1])) (map fly3_act l) = Ok e /\ e_state e = A1 s /\
    flies3 5 s (path3 {| g_lo := -1; g_hi := 1; b_lo := -1; b_hi := 1; s_lo := 200; s_hi := 400;
        gr_lo := -1; gr_hi := 1; br_lo := -1; br_hi := 1; ac_lo := -100; ac_hi := 100 |}
      {| qx := 1000; qy := 500; qz := -500; qh := 3; qg := 1; qr := -1; qv := 250 |} (map fly3_num l)).
Proof. exact (path3_ex lm w l). Qed.
Print Assumptions C120_path_example.
