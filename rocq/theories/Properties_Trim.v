(** Property C102: the trim point of the controller and the equilibrium of the airframe. *)
From Coq Require Import String List ZArith Reals.
From Verif Require Import PyBase Num XReal F16 SpecF16 SpecF16Ctl TrimPoint.
Import List ListNotations.
Local Open Scope R_scope.
Local Hint Extern 0 (Num xr) => exact (XR Fin) : typeclass_instances.

(** Tabulated model: steady level flight up to the rounding of the published numbers. Roll, pitch
    and heading rates, lateral rates and climb rate are exactly zero. *)
Theorem C102_stevens : forall adjust_cy : bool, exists v' a' q' w nz az,
  subf16_model (state_of trim) (control_of trim_surfaces) "stevens" adjust_cy
    = Ok (map Fin [v'; a'; 0; 0; 0; 0; 0; q'; 0; 502; 0; 0; w], Fin nz, Fin 0, Fin az, Fin 0) /\
  Rabs v' <= 0.001 /\ Rabs a' <= 0.00003 /\ Rabs q' <= 0.00003 /\ Rabs w <= 0.0025 /\
  Rabs nz <= 0.0004.
Proof. exact trim_stevens. Qed.
Print Assumptions C102_stevens.

(** The closed loop at rest at trim with zero reference stays there, integrators included. *)
Theorem C102_closed_loop_stevens : exists v' a' q' w nz urad,
  controlled_f16 (closed_state trim 0 0 0 []) (map Fin [0; 0; 0; 0]) "stevens" false
    = Ok (map Fin [v'; a'; 0; 0; 0; 0; 0; q'; 0; 502; 0; 0; w; nz; 0; 0], urad, Fin nz, Fin 0, Fin 0) /\
  Rabs v' <= 0.001 /\ Rabs a' <= 0.00003 /\ Rabs q' <= 0.00003 /\ Rabs w <= 0.0025 /\
  Rabs nz <= 0.0004.
Proof. exact trim_closed_stevens. Qed.
Print Assumptions C102_closed_loop_stevens.

(** The polynomial model, which [controlled_f16] uses by default, is not in equilibrium there: it
    pitches down at more than 0.18 rad/s^2 and accelerates. *)
Theorem C102_default_model_refuted : exists v' a' q' w nz urad,
  controlled_f16 (closed_state trim 0 0 0 []) (map Fin [0; 0; 0; 0]) "morelli" false
    = Ok (map Fin [v'; a'; 0; 0; 0; 0; 0; q'; 0; 502; 0; 0; w; nz; 0; 0], urad, Fin nz, Fin 0, Fin 0) /\
  0.3 <= v' /\ a' <= -0.0145 /\ q' <= -0.18 /\ 0.14 <= nz.
Proof. exact trim_closed_morelli. Qed.
Print Assumptions C102_default_model_refuted.

(** A concrete instance: the published trim state is [502; 0.0389; ...; 1000; 9.0567]. *)
Example C102_ex : nth 0 (state_of trim) NaN = Fin 502 /\ nth 11 (state_of trim) NaN = Fin 1000 /\
  control_of trim_surfaces = map Fin [0.1395; -0.7496; 0; 0].
Proof. repeat split. Qed.
