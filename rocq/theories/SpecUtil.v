(** Specification vocabulary for the utilities of the F-16 package (C62-C66): the Euler method on
    the reals, allowed attribute sets, safe runs, columns of one aircraft. No model definitions. *)
From Coq Require Import String List ZArith Reals Bool.
Import List ListNotations.
Local Open Scope R_scope.

(** The Euler method from [(t0, y0)] with step [h], whose [N]-th instant is [tend]. *)
Definition instant (t0 h tend : R) (N k : nat) : R :=
  if Nat.ltb k N then t0 + INR k * h else tend.
Definition advance (y : list R) (dt : R) (yd : list R) : list R :=
  map (fun ab => fst ab + dt * snd ab) (combine y yd).
Fixpoint march (f : R -> list R -> list R) (time : nat -> R) (y0 : list R) (k : nat) : list R :=
  match k with
  | O => y0
  | S m => let y := march f time y0 m in advance y (time (S m) - time m) (f (time m) y)
  end.
(** [N] is the first step that reaches the end of the interval up to [tol]. *)
Definition last_step (t0 h tend tol : R) (N : nat) : Prop :=
  (1 <= N)%nat /\ tend <= t0 + INR N * h + tol /\
  forall k, (1 <= k < N)%nat -> t0 + INR k * h + tol < tend.

(** The line through [(t0, y0)] and [(t1, y1)], at [t]. *)
Definition on_line (t0 : R) (y0 : list R) (t1 : R) (y1 : list R) (t : R) : list R :=
  map (fun ab => fst ab + (snd ab - fst ab) * ((t - t0) / (t1 - t0))) (combine y0 y1).

(** Safety of a run (C65). Rows are the 13 airframe variables and the 3 integrators; angles in
    radians, the sideslip and roll rate limits in degrees. *)
Record flight_limits : Type := {
  m_altitude : option (R * R); m_Nz : option (R * R); m_speed : option (R * R);
  m_alpha : option (R * R); m_ps : option R; m_beta : option R }.
Definition between (l : option (R * R)) (x : R) : Prop :=
  match l with None => True | Some (lo, hi) => lo <= x <= hi end.
Definition at_most (l : option R) (x : R) : Prop :=
  match l with None => True | Some hi => x <= hi end.
Definition in_degrees (x : R) : R := x * 180 / PI.
Definition safe_tick (lim : flight_limits) (row : list R) (nz ps : R) : Prop :=
  between (m_altitude lim) (nth 11 row 0) /\ between (m_Nz lim) nz /\
  between (m_speed lim) (nth 0 row 0) /\ between (m_alpha lim) (nth 1 row 0) /\
  at_most (m_ps lim) (in_degrees (Rabs ps)) /\
  at_most (m_beta lim) (in_degrees (Rabs (nth 2 row 0))).
(** What is checked instead: no speed, and the sideslip and roll rate with their sign in radians. *)
Definition checked_tick (lim : flight_limits) (row : list R) (nz ps : R) : Prop :=
  between (m_altitude lim) (nth 11 row 0) /\ between (m_Nz lim) nz /\
  between (m_alpha lim) (nth 1 row 0) /\
  at_most (m_ps lim) ps /\ at_most (m_beta lim) (nth 2 row 0).
Definition every_tick (P : list R -> R -> R -> Prop) (rows : list (list R)) (nzs pss : list R) : Prop :=
  forall i, (i < length rows)%nat -> P (nth i rows []) (nth i nzs 0) (nth i pss 0).

(** Columns [16 i .. 16 i + 15] of a row: aircraft [i]. *)
Definition aircraft_columns {A} (d : A) (i : nat) (row : list A) : list A :=
  map (fun j => nth (16 * i + j) row d) (seq 0 16).
