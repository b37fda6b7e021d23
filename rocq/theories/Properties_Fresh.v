(** Property C115: the first step of a new aircraft. *)
From Coq Require Import String ZArith Reals List.
From Flocq Require Import Core.Core IEEE754.BinarySingleNaN.
From Verif Require Import PyBase Num Arr BaseModel Dubins Float64 XTac SpecCwh SpecRound SpecFly SpecFly3 Fresh SpecFresh FreshLemmas FreshEx Fresh3 Fresh3Run.
Import List ListNotations.
Local Open Scope R_scope.

(** A new aircraft does not fly as accurately as one in the same state that was assigned as a float64 array. At
    256 ft/s and a heading of one radian it is 5/1000000 ft off after a second, whatever the mathematical
    library; the other one is off by at most 1/100000000 ft. *)
Theorem C115_refuted : exists v_min v_max hr_min hr_max acc_min acc_max x y hd v (l : list (f64 * f64 * f64)) L p,
  Forall (fly_ok 1) l /\
  forall (lm : libm) (m : libm32) (w : world f64), accurate lm -> accurate32 m ->
  (exists e s, fly_new2d lm m w 0 v_min v_max hr_min hr_max acc_min acc_max x y hd v (map fly_act l) = Ok e /\
     e_state e = A1 s /\ ~ flies (5 / 1000000) s (fly L p (map fly_num l))) /\
  let a := dubins2d_aircraft (N := F64 lm) 0 "Euler" v_min v_max hr_min hr_max acc_min acc_max x y hd v in
  exists e s, run (N := F64 lm) w (set_state a (A1 [x; y; hd; v])) (map fly_act l) = Ok e /\
    e_state e = A1 s /\ flies (1 / 100000000) s (fly L p (map fly_num l)).
Proof.
  exact (ex_intro _ (fl 200 1) (ex_intro _ (fl 400 1) (ex_intro _ (fl (-1) 1) (ex_intro _ (fl 1 1) (ex_intro _ (fl (-100) 1) (ex_intro _ (fl 100 1)
    (ex_intro _ (fl 0 1) (ex_intro _ (fl 0 1) (ex_intro _ (fl 1 1) (ex_intro _ (fl 256 1) (ex_intro _ one_step (ex_intro _ limits_ex (ex_intro _ pose_ex
    (conj one_step_ok (fun lm m w Ac Am => conj (new_off lm m w Am) (assigned_near lm w Ac)))))))))))))))).
Qed.
Print Assumptions C115_refuted.

(** Any flight of a new Dubins2dAircraft with Euler steps: it completes, and its state is within
    [first_error + fly_error] of the exact flight, as long as that is below 1. The first step, computed in float32,
    adds about a millionth of the distance of one step to the position error of C113, once.
    Missing: the bound of C113 alone, which is false. *)
Theorem C115_fly_partial : forall (lm : libm) (m : libm32) (w : world f64) v_min v_max hr_min hr_max acc_min acc_max samples B H V Q C x0 y0 hd0 v0 l,
  accurate lm -> accurate32 m -> (samples <= 0)%Z ->
  Forall (fun a : f64 => is_finite (f64_f32 a) = true) [v_min; v_max; x0; y0; hd0; v0] ->
  Forall (within 100) [hr_min; hr_max; acc_min; acc_max] ->
  Forall (fun a : f64 => Rabs (B2R (f64_f32 a)) <= V) [v_min; v_max; v0] ->
  Forall (fun a : f64 => Rabs (B2R a) <= Q) [hr_min; hr_max] -> Forall (fun a : f64 => Rabs (B2R a) <= C) [acc_min; acc_max] ->
  0 <= H -> Forall (fly_ok H) l ->
  Forall (fun a : f64 => Rabs (B2R (f64_f32 a)) + INR (length l) * (H * V) + 1 <= B) [x0; y0; hd0] ->
  B <= bpow radix2 99 -> V <= bpow radix2 99 -> first_error H V + fly_error B H V Q C (length l) <= 1 ->
  let L := {| v_lo := B2R (f64_f32 v_min); v_hi := B2R (f64_f32 v_max); r_lo := B2R hr_min; r_hi := B2R hr_max;
              a_lo := B2R acc_min; a_hi := B2R acc_max |} in
  let p := {| px := B2R (f64_f32 x0); py := B2R (f64_f32 y0); phead := B2R (f64_f32 hd0); pv := B2R (f64_f32 v0) |} in
  exists e s, fly_new2d lm m w samples v_min v_max hr_min hr_max acc_min acc_max x0 y0 hd0 v0 (map fly_act l) = Ok e /\
    e_state e = A1 s /\ flies (first_error H V + fly_error B H V Q C (length l)) s (fly L p (map fly_num l)).
Proof. exact fly_new. Qed.
Print Assumptions C115_fly_partial.

(** The jet of C113_fly_example, from the constructor: within 15/10000 after 100 steps of at most a second. *)
Example C115_fly_example : forall (lm : libm) (m : libm32) (w : world f64) l, accurate lm -> accurate32 m -> length l = 100%nat -> Forall (fly_ok 1) l ->
  exists e s, fly_new2d lm m w 0 (fl 200 1) (fl 400 1) (fl (-1) 1) (fl 1 1) (fl (-100) 1) (fl 100 1)
      (fl 1000 1) (fl 500 1) (fl 3 1) (fl 250 1) (map fly_act l) = Ok e /\ e_state e = A1 s /\
    flies (15 / 10000) s (fly limits_ex {| px := 1000; py := 500; phead := 3; pv := 250 |} (map fly_num l)).
Proof. exact new_ex. Qed.

(** The first derivative of a new Dubins3dAircraft (float32 state; speed at least 1 ft/s): every component is within
    about two millionths of its value, or of the speed, of the exact one. *)
Theorem C115_dot3 : forall (lm : libm) (m : libm32) x y z hd ga ro v,
  accurate32 m -> accurate_tan32 m -> Forall is_f32 [hd; ga; ro; v] ->
  1 <= Rabs (B2R v) <= bpow radix2 98 -> Rabs (tan (B2R ro)) <= bpow radix2 98 ->
  exists xd yd zd hdd, dubins3d_f32 lm m (G_FT (N := F64 lm)) (A1 [x; y; z; hd; ga; ro; v]) =
      Ok (A1 [xd; yd; zd; hdd; n0 (N := F64 lm); n0 (N := F64 lm); n0 (N := F64 lm)]) /\
    Forall (fun a : f64 => is_finite a = true) [xd; yd; zd; hdd] /\
    Rabs (B2R xd - B2R v * cos (B2R hd) * cos (B2R ga)) <= bpow radix2 (-19) * Rabs (B2R v) + bpow radix2 (-147) /\
    Rabs (B2R yd - B2R v * sin (B2R hd) * cos (B2R ga)) <= bpow radix2 (-19) * Rabs (B2R v) + bpow radix2 (-147) /\
    Rabs (B2R zd - - B2R v * sin (B2R ga)) <= bpow radix2 (-19) * Rabs (B2R v) + bpow radix2 (-147) /\
    Rabs (B2R hdd - 32.17 / B2R v * tan (B2R ro)) <= bpow radix2 (-19) * Rabs (32.17 / B2R v * tan (B2R ro)) + bpow radix2 (-100).
Proof. exact new_dot3. Qed.
Print Assumptions C115_dot3.

(** Any flight of a new Dubins3dAircraft with Euler steps, under the conditions of C114 (speeds of at least 1 ft/s). The
    first step adds to the position and to the heading; the latter moves every later step a little.
    Missing: the bound of C114 alone, which is false. *)
Theorem C115_fly3_partial : forall (lm : libm) (mm : libm32) (w : world f64) v_min v_max g_min g_max r_min r_max gr_min gr_max rr_min rr_max
    acc_min acc_max samples B H V C A m c x0 y0 z0 hd0 ga0 ro0 v0 l,
  accurate lm -> accurate_tan lm -> accurate32 mm -> accurate_tan32 mm -> (samples <= 0)%Z ->
  Forall (fun a : f64 => is_finite (f64_f32 a) = true) [v_min; v_max; g_min; g_max; r_min; r_max; x0; y0; z0; hd0; ga0; ro0; v0] ->
  Forall (within 100) [gr_min; gr_max; rr_min; rr_max; acc_min; acc_max] ->
  Forall (fun a : f64 => m <= B2R (f64_f32 a) <= V) [v_min; v_max; v0] ->
  Forall (fun a : f64 => Rabs (B2R (f64_f32 a)) <= 2) [g_min; g_max; ga0] ->
  Forall (fun a : f64 => Rabs (B2R (f64_f32 a)) <= A) [r_min; r_max; ro0] ->
  Forall (fun a : f64 => Rabs (B2R a) <= C) [gr_min; gr_max; rr_min; rr_max; acc_min; acc_max] ->
  1 <= m -> bpow radix2 (-98) <= c -> A + 1 / 1024 <= PI -> c <= cos (A + 1 / 1024) ->
  0 <= H -> Forall (fly3_ok H) l ->
  Forall (fun a : f64 => Rabs (B2R (f64_f32 a)) + INR (length l) * (H * V) + 1 <= B) [x0; y0; z0; hd0] ->
  B <= bpow radix2 99 -> V <= bpow radix2 98 -> first_error3 H V m c (length l) + fly3_error B H V C m c (length l) <= 1 ->
  let f (a : f64) := B2R (f64_f32 a) in
  let L := {| g_lo := f g_min; g_hi := f g_max; b_lo := f r_min; b_hi := f r_max; s_lo := f v_min; s_hi := f v_max;
              gr_lo := B2R gr_min; gr_hi := B2R gr_max; br_lo := B2R rr_min; br_hi := B2R rr_max;
              ac_lo := B2R acc_min; ac_hi := B2R acc_max |} in
  let p := {| qx := f x0; qy := f y0; qz := f z0; qh := f hd0; qg := f ga0; qr := f ro0; qv := f v0 |} in
  exists e s, fly_new3d lm mm w samples v_min v_max g_min g_max r_min r_max gr_min gr_max rr_min rr_max acc_min acc_max
      x0 y0 z0 hd0 ga0 ro0 v0 (map fly3_act l) = Ok e /\
    e_state e = A1 s /\ flies3 (first_error3 H V m c (length l) + fly3_error B H V C m c (length l)) s (fly3 L p (map fly3_num l)).
Proof. exact fly_new3. Qed.
Print Assumptions C115_fly3_partial.

(** The jet of C114_fly3_example, from the constructor: within 2/1000. *)
Example C115_fly3_example : forall (lm : libm) (mm : libm32) (w : world f64) l, accurate lm -> accurate_tan lm -> accurate32 mm -> accurate_tan32 mm ->
  length l = 100%nat -> Forall (fly3_ok (1 / 10)) l ->
  exists e s, fly_new3d lm mm w 0 (fl 200 1) (fl 400 1) (fl (-1) 1) (fl 1 1) (fl (-1) 1) (fl 1 1)
    (fl (-1) 1) (fl 1 1) (fl (-1) 1) (fl 1 1) (fl (-100) 1) (fl 100 1)
    (fl 1000 1) (fl 500 1) (fl (-500) 1) (fl 3 1) (fl 1 1) (fl (-1) 1) (fl 250 1) (map fly3_act l) = Ok e /\ e_state e = A1 s /\
    flies3 (2 / 1000) s (fly3 {| g_lo := -1; g_hi := 1; b_lo := -1; b_hi := 1; s_lo := 200; s_hi := 400;
        gr_lo := -1; gr_hi := 1; br_lo := -1; br_hi := 1; ac_lo := -100; ac_hi := 100 |}
      {| qx := 1000; qy := 500; qz := -500; qh := 3; qg := 1; qr := -1; qv := 250 |} (map fly3_num l)).
Proof. exact new3_ex. Qed.

(** Accurate libraries exist. *)
Example C115_accurate : exists m, accurate32 m /\ accurate_tan32 m.
Proof. exact (ex_intro _ m_grid (conj accurate32_ex accurate_tan32_ex)). Qed.
