(** Specification vocabulary for long-term energy behaviour. Nothing here is used by the
    model. *)
From Coq Require Import List Reals.
Import ListNotations.
Local Open Scope R_scope.

(** Squared amplitudes (times n^2) of the two oscillations of a relative orbit: the in-plane
    ellipse and the cross-track oscillation. *)
Definition in_plane (n : R) (s : list R) : R := (nth 3 s 0)^2 + (3 * n * nth 0 s 0 + 2 * nth 4 s 0)^2.
Definition cross_track (n : R) (s : list R) : R := (nth 5 s 0)^2 + (n * nth 2 s 0)^2.

(** The factor by which explicit Euler steps [hs] blow up an oscillation of frequency [n]. *)
Definition blow_up (n : R) (hs : list R) : R := fold_right (fun h acc => (1 + (n * h)^2) * acc) 1 hs.
Definition sum_squares (hs : list R) : R := fold_right (fun h acc => h^2 + acc) 0 hs.
