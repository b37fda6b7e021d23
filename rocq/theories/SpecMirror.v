(** Specification vocabulary: mechanical energy and the mirror image of a flight. Nothing here
    is used by the model. *)
From Coq Require Import String List Reals.
From Verif Require Import PyBase Num XReal F16 SpecF16.
Local Open Scope R_scope.

(** Reflection in the plane that is vertical and points north: east, yaw, roll, sideslip, roll
    rate and yaw rate change sign. Used for states and for derivatives of states. *)
Definition mirror (x : airframe) : airframe :=
  {| a_vt := a_vt x; a_alpha := a_alpha x; a_beta := - a_beta x; a_phi := - a_phi x;
     a_theta := a_theta x; a_psi := - a_psi x; a_p := - a_p x; a_q := a_q x; a_r := - a_r x;
     a_pn := a_pn x; a_pe := - a_pe x; a_alt := a_alt x; a_pow := a_pow x |}.
Definition mirror_surfaces (u : surfaces) : surfaces :=
  {| s_thr := s_thr u; s_el := s_el u; s_ail := - s_ail u; s_rdr := - s_rdr u |}.

(** The derivative [d] at [x] without the gyroscopic moment of the engine (angular momentum
    160), which turns the same way in both images. *)
Definition without_engine (x d : airframe) : airframe :=
  {| a_vt := a_vt d; a_alpha := a_alpha d; a_beta := a_beta d; a_phi := a_phi d;
     a_theta := a_theta d; a_psi := a_psi d;
     a_p := a_p d - 0.000001642 * 160 * a_q x;
     a_q := a_q d + 0.00001792 * 160 * a_r x;
     a_r := a_r d - 0.00001587 * 160 * a_q x;
     a_pn := a_pn d; a_pe := a_pe d; a_alt := a_alt d; a_pow := a_pow d |}.

(** No sideslip, or the table model with centred ailerons and rudder. *)
Definition symmetric_air (model : string) (x : airframe) (u : surfaces) : Prop :=
  a_beta x = 0 \/ (model = "stevens"%string /\ s_ail u = 0 /\ s_rdr u = 0).

(** The mirror image of a flight condition has the mirror image as derivative. *)
Definition mirrored (x : airframe) (u : surfaces) (model : string) (adj : bool) : Prop :=
  forall d nz ny az ay,
    subf16_model (N := XR Fin) (state_of x) (control_of u) model adj = Ok (state_of d, Fin nz, Fin ny, Fin az, Fin ay) ->
    exists nz' ny' az' ay',
      subf16_model (N := XR Fin) (state_of (mirror x)) (control_of (mirror_surfaces u)) model adj
      = Ok (state_of (mirror d), Fin nz', Fin ny', Fin az', Fin ay').
