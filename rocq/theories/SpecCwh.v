(** Specification vocabulary for the spacecraft models: sub-matrices, exact solutions of
    the implemented differential equation, the closed-form Clohessy-Wiltshire flow.
    Nothing here is used by the model. *)
From Coq Require Import String List Bool Arith ZArith Reals.
From Coquelicot Require Import Coquelicot.
From Verif Require Import PyBase Num Arr BaseModel XReal.
Import List ListNotations.
Local Open Scope R_scope.

(** Rows [rs] and columns [cs] of a matrix. *)
Definition submatrix {A} (d : A) (rs cs : list nat) (M : list (list A)) : list (list A) :=
  map (fun r => map (fun c => nth c (nth r M []) d) cs) rs.

(** a x + b y, element by element. *)
Definition vlin (a : R) (x : list R) (b : R) (y : list R) : list R :=
  zipw (fun p q => a * p + b * q) x y.

(** Saturation at [lo] and [hi]. *)
Definition clipR (lo hi x : R) : R := Rmin (Rmax x lo) hi.

(** Derivative [r] of a state element [x] that must not leave [lo, hi]. *)
Definition stopR (lo hi x r : R) : R :=
  if Rle_dec hi x then Rmin r 0 else if Rle_dec x lo then Rmax r 0 else r.

(** [sol] is a solution, for all times, of the differential equation that the dynamics
    object implements, under the constant control [u]. *)
Definition solves (d : dyn xr) {N : Num xr} (u : arr xr) (sol : R -> list R) : Prop :=
  forall t, exists ds,
    length (sol t) = length (sol 0) /\ length ds = length (sol 0) /\
    compute_state_dot d (Fin t) (A1 (map Fin (sol t))) u = Ok (A1 (map Fin ds)) /\
    forall i, (i < length (sol 0%R))%nat ->
      is_derive (fun t => nth i (sol t) 0) t (nth i ds 0).

(** Closed-form solution of the unforced Clohessy-Wiltshire equations. *)
Definition cw_flow (n : R) (s : list R) (t : R) : list R :=
  match s with
  | [x; y; z; vx; vy; vz] =>
      let S := sin (n * t) in let C := cos (n * t) in
      [(4 - 3 * C) * x + S / n * vx + 2 / n * (1 - C) * vy;
       6 * (S - n * t) * x + y - 2 / n * (1 - C) * vx + (4 * S - 3 * n * t) / n * vy;
       C * z + S / n * vz;
       3 * n * S * x + C * vx + 2 * S * vy;
       - 6 * n * (1 - C) * x - 2 * S * vx + (4 * C - 3) * vy;
       - n * S * z + C * vz]
  | _ => s
  end.

(** Actions that command no thrust along y (directly, through missing dict entries or by
    default). *)
Inductive no_y_thrust : action xr -> Prop :=
| nyt_none : no_y_thrust ANone
| nyt_dict items :
    (forall k v, In (k, v) items -> k <> "thrust_y"%string /\ exists r, v = Fin r) ->
    no_y_thrust (ADict items)
| nyt_arr fx fz : no_y_thrust (AArr (A1 [Fin fx; Fin 0; Fin fz])).
