(** Specification vocabulary for long-term motion: forced Clohessy-Wiltshire motion in
    closed form, solvers without error, distance of states. Nothing here is used by the
    model. *)
From Coq Require Import String List Bool Arith ZArith Reals.
From Coquelicot Require Import Coquelicot.
From Verif Require Import PyBase Num Arr BaseModel XReal SpecRk SpecCwh.
Import List ListNotations.
Local Open Scope R_scope.

(** Displacement, after time [t], caused by the constant acceleration (ax, ay, az). *)
Definition cw_push (n ax ay az t : R) : list R :=
  let S := sin (n * t) in let C := cos (n * t) in
  [ax / n^2 * (1 - C) + 2 * ay / n^2 * (n * t - S);
   - 2 * ax / n^2 * (n * t - S) + 4 * ay / n^2 * (1 - C) - 3 / 2 * ay * t^2;
   az / n^2 * (1 - C);
   ax / n * S + 2 * ay / n * (1 - C);
   - 2 * ax / n * (1 - C) + 4 * ay / n * S - 3 * ay * t;
   az / n * S].
(** Closed-form Clohessy-Wiltshire motion under a constant acceleration. *)
Definition cw_forced (n ax ay az : R) (s : list R) (t : R) : list R :=
  vlin 1 (cw_flow n s t) 1 (cw_push n ax ay az t).

(** [phi] is, for all times, a solution of x' = f t x. *)
Definition integral_curve (f : xr -> arr xr -> res (arr xr)) (phi : R -> list R) : Prop :=
  forall t, exists ds,
    length (phi t) = length (phi 0) /\ length ds = length (phi 0) /\
    f (Fin t) (A1 (map Fin (phi t))) = Ok (A1 (map Fin ds)) /\
    forall i, (i < length (phi 0%R))%nat -> is_derive (fun t => nth i (phi t) 0) t (nth i ds 0).

(** The adaptive solver of [w] makes no error on the equation x' = f t x: if the equation
    has a solution through the initial state, the last row that the solver returns is the
    value of that solution at the end of the interval. *)
Definition exact_on (w : world xr) (f : xr -> arr xr -> res (arr xr)) : Prop :=
  forall h te phi, integral_curve f phi ->
    (forall ts, te = Some ts -> last ts NaN = Fin h) ->
    exists sol rows, w_solve_ivp w f (Fin h) (A1 (map Fin (phi 0))) te = Ok sol /\ sol_y sol = (rows ++ [map Fin (phi h)])%list.

(** The largest difference of corresponding elements is at most [eps]. *)
Definition within (eps : R) (s s' : list R) : Prop :=
  length s = length s' /\ forall i, Rabs (nth i s 0 - nth i s' 0) <= eps.

(** Steady turn: heading rate [om], speed [v], from (x, y) with heading [psi]. *)
Definition turn2d (x y psi v om t : R) : list R :=
  [x + v / om * (sin (psi + om * t) - sin psi); y - v / om * (cos (psi + om * t) - cos psi); psi + om * t; v].
(** Steady turn of the 3d aircraft: additionally flight path angle [ga] and roll angle [ro]. *)
Definition turn3d (x y z psi ga ro v om t : R) : list R :=
  [x + v * cos ga / om * (sin (psi + om * t) - sin psi); y - v * cos ga / om * (cos (psi + om * t) - cos psi);
   z - v * sin ga * t; psi + om * t; ga; ro; v].

(** Steps of the given lengths with the given array commands. *)
Definition thrusts (l : list (R * list R)) : list (xr * action xr) :=
  map (fun p => (Fin (fst p), AArr (A1 (map Fin (snd p))))) l.
