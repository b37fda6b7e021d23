(** Properties C95, C96: energy balance and mirror symmetry of the F-16 equations. *)
From Coq Require Import String List ZArith Reals Lra.
From Verif Require Import PyBase Num XReal Aero Morelli F16 SpecF16 SpecMirror F16Sym F16Examples MirrorLemmas.
Import List ListNotations.
Local Open Scope R_scope.
Local Hint Extern 0 (Num xr) => exact (XR Fin) : typeclass_instances.

(** * C95 Energy balance *)

(** Kinetic and potential energy per unit mass, vt^2/2 + g alt, changes at the rate vt vt' +
    g alt'; this is the power of thrust and aerodynamic force. Turning, banking and gravity do
    no work. *)
Theorem C95_energy :
  forall x u model adj, known_model model = true -> cos (a_theta x) <> 0 ->
  a_vt x <> 0 -> cos (a_beta x) <> 0 -> a_alt x < 142247 ->
  exists c1 c2 c3 c4 c5 c6 dd Q t d nz ny az ay fx fy fz ub vb wb,
    coefficients model x u c1 c2 c3 c4 c5 c6 /\ environment x dd Q t /\
    subf16_model (state_of x) (control_of u) model adj = Ok (state_of d, Fin nz, Fin ny, Fin az, Fin ay) /\
    body_velocity x = (ub, vb, wb) /\
    fx = 0.00157 * (300 * Q * (c1 + half_chord x * a_q x * dd 0%nat) + t) /\
    fy = 0.00157 * (300 * Q * (c2 + half_span x * (dd 1%nat * a_r x + dd 2%nat * a_p x))) /\
    fz = 0.00157 * (300 * Q * (c3 + half_chord x * a_q x * dd 3%nat)) /\
    a_vt x * a_vt d + 32.17 * a_alt d = fx * ub + fy * vb + fz * wb.
Proof. exact energy_balance. Qed.
Print Assumptions C95_energy.

(** Level at 500 ft/s: drag coefficient 0.01943367 against the thrust. *)
Example C95_example : forall adj, exists dd Q t d nz ny az ay, environment cruising dd Q t /\
  subf16_model (state_of cruising) (control_of idle) "morelli" adj = Ok (state_of d, Fin nz, Fin ny, Fin az, Fin ay) /\
  500 * a_vt d + 32.17 * a_alt d = 0.00157 * (300 * Q * -0.01943367 + t) * 500.
Proof. exact C95_ex. Qed.

(** * C96 Mirrored flight *)

(** Without sideslip (either model), or with centred ailerons and rudder (table model): the
    mirror image of the state with mirrored controls has the mirror image of the derivative,
    once the engine's gyroscopic moment is taken out; the accelerations at the centre of
    gravity are mirrored too.
    Missing: sideslip together with lateral controls, and the engine's moment, where it is false. *)
Theorem C96_mirror_partial :
  forall x u model adj, known_model model = true -> cos (a_theta x) <> 0 ->
  a_vt x <> 0 -> cos (a_beta x) <> 0 -> a_alt x < 142247 -> symmetric_air model x u ->
  exists d nz ny az ay d' nz' ny' az' ay',
    subf16_model (state_of x) (control_of u) model adj = Ok (state_of d, Fin nz, Fin ny, Fin az, Fin ay) /\
    subf16_model (state_of (mirror x)) (control_of (mirror_surfaces u)) model adj
      = Ok (state_of d', Fin nz', Fin ny', Fin az', Fin ay') /\
    without_engine (mirror x) d' = mirror (without_engine x d) /\
    az' + 15 * a_q d' = az + 15 * a_q d /\
    (adj = false -> ay' = - ay) /\ (adj = true -> ay' - 15 * a_r d' = - (ay - 15 * a_r d)).
Proof. exact f16_mirror. Qed.
Print Assumptions C96_mirror_partial.

(** Not pitching and not yawing: everything is mirrored.
    Missing as in C96_mirror_partial, but for the engine's moment. *)
Theorem C96_steady_partial :
  forall x u model adj, known_model model = true -> cos (a_theta x) <> 0 ->
  a_vt x <> 0 -> cos (a_beta x) <> 0 -> a_alt x < 142247 -> symmetric_air model x u ->
  a_q x = 0 -> a_r x = 0 ->
  exists d nz ny az ay,
    subf16_model (state_of x) (control_of u) model adj = Ok (state_of d, Fin nz, Fin ny, Fin az, Fin ay) /\
    subf16_model (state_of (mirror x)) (control_of (mirror_surfaces u)) model adj
      = Ok (state_of (mirror d), Fin nz, Fin (- ny), Fin az, Fin (- ay)).
Proof. exact steady_mirror. Qed.
Print Assumptions C96_steady_partial.

(** Full statement: [forall x u model adj, mirrored x u model adj] on the domain above. It fails
    for the engine's angular momentum, ... *)
Theorem C96_engine_refuted : exists x u, a_beta x = 0 /\ forall adj, ~ mirrored x u "stevens" adj.
Proof. exact (ex_intro _ pitching (ex_intro _ idle (conj eq_refl engine_breaks))). Qed.
Print Assumptions C96_engine_refuted.

(** ... for even powers of the sideslip angle in the rolling and yawing polynomials, ... *)
Theorem C96_polynomial_refuted : exists x u, a_q x = 0 /\ a_r x = 0 /\ forall adj, ~ mirrored x u "morelli" adj.
Proof. exact (ex_intro _ (slipping 0.1) (ex_intro _ idle (conj eq_refl (conj eq_refl polynomial_breaks)))). Qed.
Print Assumptions C96_polynomial_refuted.

(** ... and for the tables of aileron effectiveness, which differ between left and right. *)
Theorem C96_table_refuted : exists x u, a_q x = 0 /\ a_r x = 0 /\ forall adj, ~ mirrored x u "stevens" adj.
Proof. exact (ex_intro _ (slipping (10 / 57.29578)) (ex_intro _ rolling (conj eq_refl (conj eq_refl table_breaks)))). Qed.
Print Assumptions C96_table_refuted.

(** Banked to the right with ailerons; the image is banked to the left. *)
Example C96_example : forall adj, exists d nz ny az ay,
  subf16_model (state_of banked) (control_of rolling) "morelli" adj = Ok (state_of d, Fin nz, Fin ny, Fin az, Fin ay) /\
  subf16_model (map Fin [500; 0.1; - 0; - (1); 0; - 0; - (0.2); 0; - 0; 0; - (100); 1000; 50]) (map Fin [0; 0; - (20); - 0]) "morelli" adj
    = Ok (state_of (mirror d), Fin nz, Fin (- ny), Fin az, Fin (- ay)).
Proof. exact C96_ex. Qed.
