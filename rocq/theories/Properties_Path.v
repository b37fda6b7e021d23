(** Property C118: the simulated aircraft follows the true path of a vehicle that moves along its heading. *)
From Coq Require Import String ZArith Reals List.
From Coquelicot Require Import Coquelicot.
From Flocq Require Import Core.Core IEEE754.BinarySingleNaN.
From Verif Require Import PyBase Num Arr BaseModel Dubins SpecBase SpecCwh Float64 XReal XTac SpecRound SpecFly SpecPath PathRun.
Import List ListNotations.
Local Open Scope R_scope.

(** What the specification means: the vehicle of [path1] moves along its heading at its speed, turns at the
    clipped rate and, while its speed is strictly between the limits, accelerates at the clipped rate. *)
Theorem C118_moves L rate acc p h :
  is_derive (fun t => px (path1 L t rate acc p)) h (pv (path1 L h rate acc p) * cos (phead (path1 L h rate acc p))) /\
  is_derive (fun t => py (path1 L t rate acc p)) h (pv (path1 L h rate acc p) * sin (phead (path1 L h rate acc p))) /\
  is_derive (fun t => phead (path1 L t rate acc p)) h (clipR (r_lo L) (r_hi L) rate) /\
  (v_lo L < pv p + h * clipR (a_lo L) (a_hi L) acc < v_hi L -> is_derive (fun t => pv (path1 L t rate acc p)) h (clipR (a_lo L) (a_hi L) acc)).
Proof. exact (path_moves L rate acc p h). Qed.
Print Assumptions C118_moves.
(** A quarter turn at constant speed ends one turning radius ahead and one to the side. *)
Example C118_moves_example : let L := {| v_lo := 200; v_hi := 400; r_lo := -1; r_hi := 1; a_lo := -100; a_hi := 100 |} in
  path1 L (PI / 2) 1 0 {| px := 1000; py := 500; phead := 0; pv := 250 |} = {| px := 1250; py := 750; phead := PI / 2; pv := 250 |}.
Proof. exact path_moves_ex. Qed.
Print Assumptions C118_moves_example.

(** The program in binary64 against that path, without reference to any other run of the model: from a start
    within the speed limits, any steps of at most [H] with any finite commands complete, and the computed
    state is within the rounding errors of C113 plus a method error proportional to [H] (for a fixed
    duration) of the true path; the heading agrees modulo whole turns. *)
Theorem C118_path (lm : libm) (w : world f64) v_min v_max hr_min hr_max acc_min acc_max samples B H V Q C xc yc hdc vc x0 y0 hd0 v0 l :
  accurate lm -> (samples <= 0)%Z ->
  Forall (fun a : f64 => is_finite (f64_f32 a) = true) [v_min; v_max] -> Forall (fun a : f64 => is_finite a = true) [x0; y0; hd0; v0] ->
  Forall (SpecRound.within 100) [hr_min; hr_max; acc_min; acc_max] ->
  Forall (fun a : f64 => Rabs (B2R a) <= V) [f64_f32 v_min; f64_f32 v_max; v0] ->
  Forall (fun a : f64 => Rabs (B2R a) <= Q) [hr_min; hr_max] -> Forall (fun a : f64 => Rabs (B2R a) <= C) [acc_min; acc_max] ->
  B2R (f64_f32 v_min) <= B2R v0 <= B2R (f64_f32 v_max) ->
  0 <= H -> Forall (fly_ok H) l ->
  Forall (fun a : f64 => Rabs (B2R a) + INR (length l) * (H * V) + 1 <= B) [x0; y0; hd0] ->
  B <= bpow radix2 99 -> V <= bpow radix2 99 -> fly_error B H V Q C (length l) <= 1 ->
  let L := {| v_lo := B2R (f64_f32 v_min); v_hi := B2R (f64_f32 v_max); r_lo := B2R hr_min; r_hi := B2R hr_max;
              a_lo := B2R acc_min; a_hi := B2R acc_max |} in
  let p := {| px := B2R x0; py := B2R y0; phead := B2R hd0; pv := B2R v0 |} in
  let a := dubins2d_aircraft (N := F64 lm) samples "Euler" v_min v_max hr_min hr_max acc_min acc_max xc yc hdc vc in
  exists e s, run (N := F64 lm) w (set_state a (A1 [x0; y0; hd0; v0])) (map fly_act l) = Ok e /\
    e_state e = A1 s /\ flies (fly_error B H V Q C (length l) + INR (length l) * ((C + V * Q) * (H * H / 2))) s (path L p (map fly_num l)).
Proof. exact (fly_path lm w v_min v_max hr_min hr_max acc_min acc_max samples B H V Q C xc yc hdc vc x0 y0 hd0 v0 l). Qed.
Print Assumptions C118_path.
(** A hundred steps of at most 10 ms, whatever the commands: within 3 feet of the true path. *)
Example C118_path_example (lm : libm) (w : world f64) l : accurate lm -> length l = 100%nat -> Forall (fly_ok (1 / 100)) l ->
  let a := dubins2d_aircraft (N := F64 lm) 0 "Euler" (fl 200 1) (fl 400 1) (fl (-1) 1) (fl 1 1) (fl (-100) 1) (fl 100 1)
    (fl 0 1) (fl 0 1) (fl 0 1) (fl 200 1) in
  exists e s, run (N := F64 lm) w (set_state a (A1 [fl 1000 1; fl 500 1; fl 3 1; fl 250 1])) (map fly_act l) = Ok e /\ e_state e = A1 s /\
    flies 3 s (path {| v_lo := 200; v_hi := 400; r_lo := -1; r_hi := 1; a_lo := -100; a_hi := 100 |}
      {| px := 1000; py := 500; phead := 3; pv := 250 |} (map fly_num l)).
Proof. exact (path_ex lm w l). Qed.
Print Assumptions C118_path_example.
