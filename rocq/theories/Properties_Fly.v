(** Property C113: wrapping angles and flying in binary64. *)
From Coq Require Import String ZArith Reals List.
From Flocq Require Import Core.Core IEEE754.BinarySingleNaN.
From Verif Require Import PyBase Num Arr BaseModel Dubins Float64 XTac SpecCwh SpecRound SpecFly FlyRound FlyEx.
Import List ListNotations.
Local Open Scope R_scope.

(** np.pi is within 2^-52 of pi. *)
Theorem C113_pi : Rabs (B2R f64_pi - PI) <= bpow radix2 (-52).
Proof. exact pi_val. Qed.
Print Assumptions C113_pi.

(** Wrapping a state vector changes only the elements that have a centre. A finite element with centre 0 ends
    in [-np.pi, np.pi], and a whole number of exact turns away from where it was, to within 2^-51 (|s| + 8). *)
Theorem C113_wrap : forall (lm : libm) (d : dyn f64) c s, d_wrap d = Some (A1 c) -> length c = length s ->
  Forall2 (fun a x => is_nan a = true \/ (a = B754_zero false /\ is_finite x = true)) c s ->
  exists s', wrap_angles (N := F64 lm) d (A1 s) = Ok (A1 s') /\ length s' = length s /\
    forall i, (i < length s)%nat -> wrapped (B2R f64_pi) (nth i c (B754_zero false)) (nth i s (B754_zero false)) (nth i s' (B754_zero false)).
Proof. exact wrap_state. Qed.
Print Assumptions C113_wrap.

(** 7 as the heading of an aircraft becomes 7 - 2 pi; the other elements stay. *)
Example C113_wrap_example : let d := dubins2d_dyn (N := F64 lm0) (fl 200 1) (fl 400 1) 0 "Euler" in
  rmap (fun s => match s with A1 l => map (fun a => B2SF a) l | A0 _ => [] end) (wrap_angles (N := F64 lm0) d (A1 [fl 7 1; fl 7 1; fl 7 1; fl 7 1])) =
  Ok (map (fun a => B2SF a) [fl 7 1; fl 7 1; fl 7168146928204138 10000000000000000; fl 7 1]).
Proof. exact wrap_ex. Qed.

(** Any flight of Dubins2dAircraft with Euler steps, from any state assigned as a float64 array, with any
    limits and any commands, computed with any accurate sine and cosine: it completes, and the binary64 state
    is within [fly_error] of the exact flight [fly] (the heading modulo whole turns), as long as that bound is
    below 1. The bound grows with the square of the number of steps. *)
Theorem C113_fly : forall (lm : libm) (w : world f64) v_min v_max hr_min hr_max acc_min acc_max samples B H V Q C xc yc hdc vc x0 y0 hd0 v0 l,
  accurate lm -> (samples <= 0)%Z ->
  Forall (fun a : f64 => is_finite (f64_f32 a) = true) [v_min; v_max] -> Forall (fun a : f64 => is_finite a = true) [x0; y0; hd0; v0] ->
  Forall (within 100) [hr_min; hr_max; acc_min; acc_max] ->
  Forall (fun a : f64 => Rabs (B2R a) <= V) [f64_f32 v_min; f64_f32 v_max; v0] ->
  Forall (fun a : f64 => Rabs (B2R a) <= Q) [hr_min; hr_max] -> Forall (fun a : f64 => Rabs (B2R a) <= C) [acc_min; acc_max] ->
  0 <= H -> Forall (fly_ok H) l ->
  Forall (fun a : f64 => Rabs (B2R a) + INR (length l) * (H * V) + 1 <= B) [x0; y0; hd0] ->
  B <= bpow radix2 99 -> V <= bpow radix2 99 -> fly_error B H V Q C (length l) <= 1 ->
  let L := {| v_lo := B2R (f64_f32 v_min); v_hi := B2R (f64_f32 v_max); r_lo := B2R hr_min; r_hi := B2R hr_max;
              a_lo := B2R acc_min; a_hi := B2R acc_max |} in
  let p := {| px := B2R x0; py := B2R y0; phead := B2R hd0; pv := B2R v0 |} in
  let a := dubins2d_aircraft (N := F64 lm) samples "Euler" v_min v_max hr_min hr_max acc_min acc_max xc yc hdc vc in
  exists e s, run (N := F64 lm) w (set_state a (A1 [x0; y0; hd0; v0])) (map fly_act l) = Ok e /\
    e_state e = A1 s /\ flies (fly_error B H V Q C (length l)) s (fly L p (map fly_num l)).
Proof. exact fly_main. Qed.
Print Assumptions C113_fly.

(** A jet between 200 and 400 ft/s: after 100 steps of at most a second, whatever the commands, the state is
    within 1/1000 (of a foot, of a radian, of a foot per second) of the exact flight. *)
Example C113_fly_example : forall (lm : libm) (w : world f64) l, accurate lm -> length l = 100%nat -> Forall (fly_ok 1) l ->
  let a := dubins2d_aircraft (N := F64 lm) 0 "Euler" (fl 200 1) (fl 400 1) (fl (-1) 1) (fl 1 1) (fl (-100) 1) (fl 100 1)
    (fl 0 1) (fl 0 1) (fl 0 1) (fl 200 1) in
  exists e s, run (N := F64 lm) w (set_state a (A1 [fl 1000 1; fl 500 1; fl 3 1; fl 250 1])) (map fly_act l) = Ok e /\ e_state e = A1 s /\
    flies (1 / 1000) s (fly {| v_lo := 200; v_hi := 400; r_lo := -1; r_hi := 1; a_lo := -100; a_hi := 100 |}
      {| px := 1000; py := 500; phead := 3; pv := 250 |} (map fly_num l)).
Proof. exact fly_ex. Qed.

(** Accurate libraries and such commands exist. *)
Example C113_fly_accurate : (exists lm, accurate lm) /\ Forall (fly_ok 1) (repeat (fl 1 1, fl 2 1, fl 5 1) 100).
Proof. exact (conj (ex_intro _ _ accurate_ex) fly_ok_ex). Qed.
