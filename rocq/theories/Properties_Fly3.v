(** Property C114: flying in three dimensions in binary64. *)
From Coq Require Import String ZArith Reals List.
From Flocq Require Import Core.Core IEEE754.BinarySingleNaN.
From Verif Require Import PyBase Num Arr BaseModel Dubins Float64 XTac SpecCwh SpecRound SpecFly SpecFly3 Fly3Ex.
Import List ListNotations.
Local Open Scope R_scope.

(** Any flight of Dubins3dAircraft with Euler steps, from any state assigned as a float64 array and with any
    commands, computed with accurate sine, cosine and tangent. The speed stays above [m] > 0, and the cosine of the roll above [c] > 0
    (the code divides by the speed and takes the tangent of the roll). The flight completes, and the binary64
    state is within [fly3_error] of the exact flight [fly3] (the heading modulo whole turns), as long as that
    bound is below 1. It grows with the cube of the number of steps. *)
Theorem C114_fly3 : forall (lm : libm) (w : world f64) v_min v_max g_min g_max r_min r_max gr_min gr_max rr_min rr_max acc_min acc_max samples B H V C A m c
    xc yc zc hdc gac roc vc x0 y0 z0 hd0 ga0 ro0 v0 l,
  accurate lm -> accurate_tan lm -> (samples <= 0)%Z ->
  Forall (fun a : f64 => is_finite (f64_f32 a) = true) [v_min; v_max; g_min; g_max; r_min; r_max] ->
  Forall (fun a : f64 => is_finite a = true) [x0; y0; z0; hd0; ga0; ro0; v0] ->
  Forall (within 100) [gr_min; gr_max; rr_min; rr_max; acc_min; acc_max] ->
  Forall (fun a : f64 => m <= B2R a <= V) [f64_f32 v_min; f64_f32 v_max; v0] ->
  Forall (fun a : f64 => Rabs (B2R a) <= 2) [f64_f32 g_min; f64_f32 g_max; ga0] ->
  Forall (fun a : f64 => Rabs (B2R a) <= A) [f64_f32 r_min; f64_f32 r_max; ro0] ->
  Forall (fun a : f64 => Rabs (B2R a) <= C) [gr_min; gr_max; rr_min; rr_max; acc_min; acc_max] ->
  bpow radix2 (-100) <= m -> bpow radix2 (-100) <= c -> A + 1 / 1024 <= PI -> c <= cos (A + 1 / 1024) ->
  0 <= H -> Forall (fly3_ok H) l ->
  Forall (fun a : f64 => Rabs (B2R a) + INR (length l) * (H * V) + 1 <= B) [x0; y0; z0; hd0] ->
  B <= bpow radix2 99 -> V <= bpow radix2 99 -> fly3_error B H V C m c (length l) <= 1 ->
  let f (a : f64) := B2R (f64_f32 a) in
  let L := {| g_lo := f g_min; g_hi := f g_max; b_lo := f r_min; b_hi := f r_max; s_lo := f v_min; s_hi := f v_max;
              gr_lo := B2R gr_min; gr_hi := B2R gr_max; br_lo := B2R rr_min; br_hi := B2R rr_max;
              ac_lo := B2R acc_min; ac_hi := B2R acc_max |} in
  let p := {| qx := B2R x0; qy := B2R y0; qz := B2R z0; qh := B2R hd0; qg := B2R ga0; qr := B2R ro0; qv := B2R v0 |} in
  let a := dubins3d_aircraft (N := F64 lm) samples "Euler" v_min v_max g_min g_max r_min r_max gr_min gr_max rr_min rr_max acc_min acc_max xc yc zc hdc gac roc vc in
  exists e s, run (N := F64 lm) w (set_state a (A1 [x0; y0; z0; hd0; ga0; ro0; v0])) (map fly3_act l) = Ok e /\
    e_state e = A1 s /\ flies3 (fly3_error B H V C m c (length l)) s (fly3 L p (map fly3_num l)).
Proof. exact fly3_main. Qed.
Print Assumptions C114_fly3.

(** A jet between 200 and 400 ft/s, flight path angle and roll within a radian: after 100 steps of at most a
    tenth of a second, whatever the commands, the state is within 1/1000 of the exact flight. *)
Example C114_fly3_example : forall (lm : libm) (w : world f64) l, accurate lm -> accurate_tan lm -> length l = 100%nat -> Forall (fly3_ok (1 / 10)) l ->
  let a := dubins3d_aircraft (N := F64 lm) 0 "Euler" (fl 200 1) (fl 400 1) (fl (-1) 1) (fl 1 1) (fl (-1) 1) (fl 1 1)
    (fl (-1) 1) (fl 1 1) (fl (-1) 1) (fl 1 1) (fl (-100) 1) (fl 100 1) (fl 0 1) (fl 0 1) (fl 0 1) (fl 0 1) (fl 0 1) (fl 0 1) (fl 200 1) in
  exists e s, run (N := F64 lm) w (set_state a (A1 [fl 1000 1; fl 500 1; fl (-500) 1; fl 3 1; fl 1 1; fl (-1) 1; fl 250 1])) (map fly3_act l) = Ok e /\ e_state e = A1 s /\
    flies3 (1 / 1000) s (fly3 {| g_lo := -1; g_hi := 1; b_lo := -1; b_hi := 1; s_lo := 200; s_hi := 400;
        gr_lo := -1; gr_hi := 1; br_lo := -1; br_hi := 1; ac_lo := -100; ac_hi := 100 |}
      {| qx := 1000; qy := 500; qz := -500; qh := 3; qg := 1; qr := -1; qv := 250 |} (map fly3_num l)).
Proof. exact fly3_ex. Qed.

(** Accurate libraries and such commands exist. *)
Example C114_fly3_accurate : (exists lm, accurate lm /\ accurate_tan lm) /\
  Forall (fly3_ok (1 / 10)) (repeat (fl 1 16, (fl 2 1, fl (-7) 1, fl 5 1)) 100).
Proof. exact (conj (ex_intro _ _ accurate_tan_ex) fly3_ok_ex). Qed.
