(** What the aerodynamic lookups are supposed to compute, independently of how the code
    finds its table columns. *)
From Coq Require Import List ZArith Reals.
From Coquelicot Require Import Coquelicot.
From Verif Require Import PyBase Num XReal SpecTables.
Import List ListNotations.
Local Open Scope R_scope.

(** The grid points are the integers lo..hi. Cell [j] is the interval from j to j+1; the
    first and the last cell also own what lies outside the grid. *)
Definition in_cell (lo hi j : Z) (s : R) : Prop :=
  (lo <= j < hi)%Z /\ (j = lo \/ IZR j <= s) /\ ((j + 1)%Z = hi \/ s <= IZR (j + 1)).

(** The straight line through the values at the two ends of cell [j]. *)
Definition on_cell (t : Z -> R) (j : Z) (s : R) : R :=
  t j + (s - IZR j) * (t (j + 1)%Z - t j).

Definition on_cell2 (t : Z -> Z -> R) (j m : Z) (s e : R) : R :=
  on_cell (fun m' => on_cell (fun j' => t j' m') j s) m e.

(** Entry of a published table whose first row is grid line [i0] and first column [j0]. *)
Definition entry (tab : list (list Z)) (i0 j0 i j : Z) : R :=
  IZR (nth (Z.to_nat (j - j0)) (nth (Z.to_nat (i - i0)) tab []) 0%Z).

(** A lookup of two finite arguments in grid units [da] and [db] is the bilinear
    interpolation of [t] on every cell that owns the point. *)
Definition interpolates2 (f : xr -> xr -> res xr) (da db : R) (lo hi lo' hi' : Z)
    (t : Z -> Z -> R) : Prop :=
  forall a b j m, in_cell lo hi j (a / da) -> in_cell lo' hi' m (b / db) ->
    f (Fin a) (Fin b) = Ok (Fin (on_cell2 t j m (a / da) (b / db))).

(** Thousandths. *)
Definition coeff (tab : list (list Z)) (i0 j0 i j : Z) : R := entry tab i0 j0 i j / 1000.

(** The table of an odd function, given for non-negative columns only. *)
Definition odd_coeff (tab : list (list Z)) (i0 i j : Z) : R :=
  if (j <? 0)%Z then - coeff tab i0 0 i (- j) else coeff tab i0 0 i j.

(** The one-dimensional table of [cz] and the nine damping derivatives. *)
Definition coeff1 (tab : list Z) (i0 i : Z) : R := IZR (nth (Z.to_nat (i - i0)) tab 0%Z) / 1000.

(** Engine thrust in pounds: linear in power between idle (0), military (50) and maximum
    (100), each bilinear in altitude (10000 ft steps) and Mach number (steps of 0.2). *)
Definition thrust_on (tab : list (list Z)) (j m : Z) (h rm : R) : R :=
  on_cell2 (entry tab 0 0) j m h rm.
Definition thrust_blend (power idle mil mx : R) : R :=
  if Rlt_dec power 50 then idle + (mil - idle) * (power / 50)
  else mil + (mx - mil) * ((power - 50) / 50).

(** * Continuity of functions of finite arguments *)
Definition continuous2 (f : xr -> xr -> res xr) : Prop :=
  exists g : R * R -> R,
    (forall a b, f (Fin a) (Fin b) = Ok (Fin (g (a, b)))) /\ forall p, continuous g p.
Definition continuous3 (f : xr -> xr -> xr -> res xr) : Prop :=
  exists g : R * R * R -> R,
    (forall a b c, f (Fin a) (Fin b) (Fin c) = Ok (Fin (g (a, b, c)))) /\
    forall p, continuous g p.

(** Commanded power after [n] explicit Euler steps of length [h], with the derivative
    given as a function of power and command. *)
Fixpoint power_run (pd : R -> R -> R) (h : R) (p : R) (cmds : list R) : R :=
  match cmds with
  | [] => p
  | c :: cmds' => power_run pd h (p + h * pd p c) cmds'
  end.

(** Standard atmosphere of the air data computer: temperature (Rankine), density. *)
Definition temperature (alt : R) : R :=
  if Rle_dec 35000 alt then 390 else 519 * (1 - 0.00000703 * alt).
Definition density (alt : R) : R := 0.002377 * Rpower (1 - 0.00000703 * alt) 4.14.
