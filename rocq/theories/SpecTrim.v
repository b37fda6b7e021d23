(** Trim: the constraints of each flight condition and the cost of a candidate, on reals and
    independently of the code. *)
From Coq Require Import List ZArith Reals.
From Verif Require Import PyBase Num XReal F16 SpecF16.
Import ListNotations.
Local Open Scope R_scope.

(** Engine power commanded by a throttle setting. *)
Definition power_of (t : R) : R := if Rle_dec t 0.77 then 64.94 * t else 217.38 * t - 117.38.

(** What is asked for: flight path angle (and its sine), roll and pitch rate, turn rate, bank
    angle, pull up rate. *)
Record request : Type := {
  q_gamma : R; q_singamma : R; q_roll : R; q_pitch : R; q_turn : R; q_bank : R; q_pull : R }.
Definition const_of (r : request) (k : Z) : trim_const (T := xr) := {|
  k_radgam := Fin (q_gamma r); k_singam := Fin (q_singamma r); k_rr := Fin (q_roll r);
  k_pr := Fin (q_pitch r); k_tr := Fin (q_turn r); k_phi := Fin (q_bank r);
  k_thetadot := Fin (q_pull r); k_orient := k |}.

Definition with_attitude (x : airframe) (phi theta p q r pow : R) : airframe := {|
  a_vt := a_vt x; a_alpha := a_alpha x; a_beta := a_beta x; a_phi := phi; a_theta := theta;
  a_psi := a_psi x; a_p := p; a_q := q; a_r := r; a_pn := a_pn x; a_pe := a_pe x;
  a_alt := a_alt x; a_pow := pow |}.

(** 1: level flight, 2: climb, 3: coordinated turn (body rates of a pure yaw rate), 4: pull up. *)
Definition constrained (k : Z) (c : request) (thr : R) (x : airframe) : airframe :=
  let w := power_of thr in
  match k with
  | 1%Z => with_attitude x (q_bank c) (a_alpha x) (q_roll c) (q_pitch c) 0 w
  | 2%Z => with_attitude x (q_bank c) (a_alpha x + q_gamma c) (q_roll c) (q_pitch c) 0 w
  | 3%Z => let '(p, q, r) := rates_of (a_phi x) (a_theta x) 0 0 (q_turn c) in
           with_attitude x (a_phi x) (a_theta x) p q r w
  | 4%Z => with_attitude x (q_bank c) (a_alpha x) (q_roll c) (q_pull c) 0 w
  | _ => with_attitude x (a_phi x) (a_theta x) (a_p x) (a_q x) (a_r x) w
  end.

(** Candidate of the optimiser: throttle, elevator, angle of attack, and optionally aileron,
    rudder, bank and pitch angle. *)
Inductive candidate : Type :=
| Longitudinal (thr el alpha : R)
| Full (thr el ail rdr alpha phi theta : R).
Definition candidate_vec (s : candidate) : list xr :=
  map Fin match s with
          | Longitudinal t e a => [t; e; a]
          | Full t e i r a f h => [t; e; i; r; a; f; h]
          end.
Definition candidate_state (s : candidate) (x : airframe) : airframe :=
  let '(al, ph, th) := match s with
                       | Longitudinal _ _ a => (a, a_phi x, a_theta x)
                       | Full _ _ _ _ a f h => (a, f, h)
                       end in
  {| a_vt := a_vt x; a_alpha := al; a_beta := a_beta x; a_phi := ph; a_theta := th;
     a_psi := a_psi x; a_p := a_p x; a_q := a_q x; a_r := a_r x; a_pn := a_pn x; a_pe := a_pe x;
     a_alt := a_alt x; a_pow := a_pow x |}.
Definition candidate_surfaces (s : candidate) (u : surfaces) : surfaces :=
  match s with
  | Longitudinal t e _ => {| s_thr := t; s_el := e; s_ail := s_ail u; s_rdr := s_rdr u |}
  | Full t e i r _ _ _ => {| s_thr := t; s_el := e; s_ail := i; s_rdr := r |}
  end.

(** Residuals with their weights, for a state [x] whose derivative is [d]. *)
Definition residuals (k : Z) (c : request) (x d : airframe) : list (R * R) :=
  match k with
  | 1%Z => [(100, a_vt d); (100, a_alpha d); (100, a_beta d); (100, a_p d); (100, a_q d); (100, a_r d)]
  | 2%Z => [(500, a_alt d - a_vt x * q_singamma c); (1, a_vt d); (100, a_alpha d); (100, a_beta d);
            (10, a_p d); (10, a_q d); (10, a_r d)]
  | 3%Z => [(1, a_vt d); (100, a_alpha d); (100, a_beta d); (100, a_alt d); (10, a_p d); (10, a_q d);
            (10, a_r d); (500, a_psi d - q_turn c)]
  | 4%Z => [(500, a_theta d - q_pull c); (1, a_vt d); (100, a_alpha d); (100, a_beta d);
            (10, a_p d); (10, a_q d); (10, a_r d)]
  | _ => []
  end.
Definition penalty (l : list (R * R)) : R :=
  fold_right (fun wr s => fst wr * (snd wr * snd wr) + s) 0 l.
Definition scaled (j : R) : R := if Rlt_dec j 1 then sqrt j else j.
