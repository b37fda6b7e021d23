(** Property C121: a new aircraft follows the true path, its first step in float32 included. *)
From Coq Require Import String ZArith Reals List.
From Coquelicot Require Import Coquelicot.
From Flocq Require Import Core.Core IEEE754.BinarySingleNaN.
From Verif Require Import PyBase Num Arr BaseModel Dubins SpecBase SpecCwh Float64 XReal XTac SpecRound SpecFly SpecFly3 Fresh SpecFresh SpecPath SpecPath3 NewPath.
Import List ListNotations.
Local Open Scope R_scope.

(** From the constructor call to the last step: a Dubins2dAircraft built with any finite arguments, its speed within
    the limits, and flown with Euler steps of at most [H] and any finite commands, is within the float32 error of the
    first step, the rounding errors of the others and the error of the method of the path of a vehicle that
    starts at the float32 values of the arguments and moves along its heading all the time. *)
Theorem C121_path2 (lm : libm) (m : libm32) (w : world f64) v_min v_max hr_min hr_max acc_min acc_max samples B H V Q C x0 y0 hd0 v0 l :
  accurate lm -> accurate32 m -> (samples <= 0)%Z ->
  Forall (fun a : f64 => is_finite (f64_f32 a) = true) [v_min; v_max; x0; y0; hd0; v0] ->
  Forall (SpecRound.within 100) [hr_min; hr_max; acc_min; acc_max] ->
  Forall (fun a : f64 => Rabs (B2R (f64_f32 a)) <= V) [v_min; v_max; v0] ->
  Forall (fun a : f64 => Rabs (B2R a) <= Q) [hr_min; hr_max] -> Forall (fun a : f64 => Rabs (B2R a) <= C) [acc_min; acc_max] ->
  B2R (f64_f32 v_min) <= B2R (f64_f32 v0) <= B2R (f64_f32 v_max) ->
  0 <= H -> Forall (fly_ok H) l ->
  Forall (fun a : f64 => Rabs (B2R (f64_f32 a)) + INR (length l) * (H * V) + 1 <= B) [x0; y0; hd0] ->
  B <= bpow radix2 99 -> V <= bpow radix2 99 -> first_error H V + fly_error B H V Q C (length l) <= 1 ->
  let L := {| v_lo := B2R (f64_f32 v_min); v_hi := B2R (f64_f32 v_max); r_lo := B2R hr_min; r_hi := B2R hr_max;
              a_lo := B2R acc_min; a_hi := B2R acc_max |} in
  let p := {| px := B2R (f64_f32 x0); py := B2R (f64_f32 y0); phead := B2R (f64_f32 hd0); pv := B2R (f64_f32 v0) |} in
  exists e s, fly_new2d lm m w samples v_min v_max hr_min hr_max acc_min acc_max x0 y0 hd0 v0 (map fly_act l) = Ok e /\
    e_state e = A1 s /\ flies (first_error H V + fly_error B H V Q C (length l) + INR (length l) * ((C + V * Q) * (H * H / 2))) s (path L p (map fly_num l)).
Proof. exact (new_path lm m w v_min v_max hr_min hr_max acc_min acc_max samples B H V Q C x0 y0 hd0 v0 l). Qed.
Print Assumptions C121_path2.
(** A hundred steps of at most 10 ms, whatever the commands: within 3 feet. *)
Example C121_path2_example (lm : libm) (m : libm32) (w : world f64) l : accurate lm -> accurate32 m -> length l = 100%nat -> Forall (fly_ok (1 / 100)) l ->
  exists e s, fly_new2d lm m w 0 (fl 200 1) (fl 400 1) (fl (-1) 1) (fl 1 1) (fl (-100) 1) (fl 100 1)
      (fl 1000 1) (fl 500 1) (fl 3 1) (fl 250 1) (map fly_act l) = Ok e /\ e_state e = A1 s /\
    flies 3 s (path {| v_lo := 200; v_hi := 400; r_lo := -1; r_hi := 1; a_lo := -100; a_hi := 100 |}
      {| px := 1000; py := 500; phead := 3; pv := 250 |} (map fly_num l)).
Proof. exact (new_path_ex lm m w l). Qed.
Print Assumptions C121_path2_example.

(** The same for a Dubins3dAircraft, under the conditions of C120 and speeds of at least 1 ft/s. *)
Theorem C121_path3 (lm : libm) (mm : libm32) (w : world f64) v_min v_max g_min g_max r_min r_max gr_min gr_max rr_min rr_max
    acc_min acc_max samples B H V C A m c a q x0 y0 z0 hd0 ga0 ro0 v0 l :
  accurate lm -> accurate_tan lm -> accurate32 mm -> accurate_tan32 mm -> (samples <= 0)%Z ->
  Forall (fun a : f64 => is_finite (f64_f32 a) = true) [v_min; v_max; g_min; g_max; r_min; r_max; x0; y0; z0; hd0; ga0; ro0; v0] ->
  Forall (SpecRound.within 100) [gr_min; gr_max; rr_min; rr_max; acc_min; acc_max] ->
  Forall (fun a : f64 => m <= B2R (f64_f32 a) <= V) [v_min; v_max; v0] ->
  Forall (fun a : f64 => Rabs (B2R (f64_f32 a)) <= 2) [g_min; g_max; ga0] ->
  Forall (fun a : f64 => Rabs (B2R (f64_f32 a)) <= A) [r_min; r_max; ro0] ->
  Forall (fun a : f64 => Rabs (B2R a) <= C) [gr_min; gr_max; rr_min; rr_max; acc_min; acc_max] ->
  1 <= m -> bpow radix2 (-98) <= c -> A + 1 / 1024 <= PI -> c <= cos (A + 1 / 1024) ->
  0 <= H -> Forall (fly3_ok H) l ->
  Forall (fun a : f64 => Rabs (B2R (f64_f32 a)) + INR (length l) * (H * V) + 1 <= B) [x0; y0; z0; hd0] ->
  B <= bpow radix2 99 -> V <= bpow radix2 98 -> first_error3 H V m c (length l) + fly3_error B H V C m c (length l) <= 1 ->
  Forall (fun b : f64 => Rabs (B2R b) <= q) [gr_min; gr_max; rr_min; rr_max] -> Forall (fun b : f64 => Rabs (B2R b) <= a) [acc_min; acc_max] ->
  let f (a : f64) := B2R (f64_f32 a) in
  f v_min <= f v0 <= f v_max -> f g_min <= f ga0 <= f g_max -> f r_min <= f ro0 <= f r_max ->
  let L := {| g_lo := f g_min; g_hi := f g_max; b_lo := f r_min; b_hi := f r_max; s_lo := f v_min; s_hi := f v_max;
              gr_lo := B2R gr_min; gr_hi := B2R gr_max; br_lo := B2R rr_min; br_hi := B2R rr_max;
              ac_lo := B2R acc_min; ac_hi := B2R acc_max |} in
  let p := {| qx := f x0; qy := f y0; qz := f z0; qh := f hd0; qg := f ga0; qr := f ro0; qv := f v0 |} in
  exists e s, fly_new3d lm mm w samples v_min v_max g_min g_max r_min r_max gr_min gr_max rr_min rr_max acc_min acc_max
      x0 y0 z0 hd0 ga0 ro0 v0 (map fly3_act l) = Ok e /\
    e_state e = A1 s /\ flies3 (first_error3 H V m c (length l) + fly3_error B H V C m c (length l) + path3_error H V m c a q (length l)) s (path3 L p (map fly3_num l)).
Proof.
  exact (new_path3 lm mm w v_min v_max g_min g_max r_min r_max gr_min gr_max rr_min rr_max acc_min acc_max samples B H V C A m c a q
    x0 y0 z0 hd0 ga0 ro0 v0 l).
Qed.
Print Assumptions C121_path3.
(** A hundred steps of at most 10 ms, whatever the commands: within 5 feet. *)
Example C121_path3_example (lm : libm) (mm : libm32) (w : world f64) l : accurate lm -> accurate_tan lm -> accurate32 mm -> accurate_tan32 mm ->
  length l = 100%nat -> Forall (fly3_ok (1 / 100)) l ->
  exists e s, fly_new3d lm mm w 0 (fl 200 1) (fl 400 1) (fl (-1) 1) (fl 1 1) (fl (-1) 1) (fl 1 1)
    (fl (-1) 1) (fl 1 1) (fl (-1) 1) (fl 1 1) (fl (-100) 1) (fl 100 1)
    (fl 1000 1) (fl 500 1) (fl (-500) 1) (fl 3 1) (fl 1 1) (fl (-1) 1) (fl 250 1) (map fly3_act l) = Ok e /\ e_state e = A1 s /\
    flies3 5 s (path3 {| g_lo := -1; g_hi := 1; b_lo := -1; b_hi := 1; s_lo := 200; s_hi := 400;
        gr_lo := -1; gr_hi := 1; br_lo := -1; br_hi := 1; ac_lo := -100; ac_hi := 100 |}
      {| qx := 1000; qy := 500; qz := -500; qh := 3; qg := 1; qr := -1; qv := 250 |} (map fly3_num l)).
Proof. exact (new_path3_ex lm mm w l). Qed.
Print Assumptions C121_path3_example.
