(** Concrete entities used in examples and refutations. *)
From Coq Require Import String List Bool Arith ZArith Lia Reals Lra.
From Flocq Require Import Core.Core IEEE754.BinarySingleNaN.
From Verif Require Import PyBase Num Arr BaseModel XReal Float64 Cwh Rot2d SixDof Sun Integ Dubins XTac.
Import ListNotations.
Local Hint Extern 0 (Num f64) => exact (F64 lm0) : typeclass_instances.
Local Hint Extern 0 (Num xr) => exact (XR Fin) : typeclass_instances.

(** Extract the entity from a constructor call known to succeed. *)
Definition get {T} (d : T) (r : res T) : T := match r with Ok x => x | Err _ => d end.

Definition ent0 : entity f64 :=
  mk_entity (N := F64 lm0) {| d_min := A0 (fl 0 1); d_max := A0 (fl 0 1); d_wrap := None; d_use_jax := false;
       d_samples := 0; d_sdmin := A0 (fl 0 1); d_sdmax := A0 (fl 0 1); d_method := "";
       d_raw := fun _ _ _ => Err ValueError |} (A1 []) (A1 []) (A1 []) None (A1 []).

(** CWHSpacecraft with default parameters in binary64. *)
Definition cwhF (method : string) (x vx : f64) : entity f64 :=
  let z := fl 0 1 in
  get ent0 (cwh_spacecraft (N := F64 lm0) M_DEFAULT N_DEFAULT 0 method x z z vx z z).

(** Dubins2dAircraft with default limits in binary64 (dubins.py 281-316). The libm is a
    dummy, so only effects that do not depend on sin and cos are read off it. *)
Definition dub2F (samples : Z) (method : string) (vmin vmax heading v : f64) : entity f64 :=
  dubins2d_aircraft (N := F64 lm0) samples method vmin vmax
    (fl (-174533) 1000000) (fl 174533 1000000) (fl (-965) 10) (fl 965 10)
    (fl 0 1) (fl 0 1) heading v.

(** Dubins2dAircraft over exact reals, with rate limits +-1. *)
Definition dub2X (samples : Z) (method : string) (heading : R) : entity xr :=
  dubins2d_aircraft (N := XR Fin) samples method (Fin 200) (Fin 400)
    (Fin (-1)) (Fin 1) (Fin (-96)) (Fin 96) (Fin 0) (Fin 0) (Fin heading) (Fin 200).

(** A one-element entity over exact reals: x' = u, wrapped around [c], limited to
    [lo, hi]. *)
Definition angleX (method : string) (c : xr) (lo hi : xr) (x0 : R) : entity xr :=
  mk_entity (N := XR Fin)
    {| d_min := A1 [lo]; d_max := A1 [hi]; d_wrap := Some (A1 [c]); d_use_jax := false; d_samples := 0;
       d_sdmin := no_min (N := XR Fin); d_sdmax := no_max (N := XR Fin); d_method := method;
       d_raw := fun _ _ u => Ok u |}
    (A1 [Fin 0]) (A0 (Fin (-1))) (A0 (Fin 1)) None (A1 [Fin x0]).

(** Dubins3dAircraft over exact reals with the given roll limits, straight and level at
    speed 200. *)
Definition dub3X (method : string) (roll_min roll_max roll : R) : entity xr :=
  dubins3d_aircraft 0 method (Fin 200) (Fin 400) (Fin (-1)) (Fin 1) (Fin roll_min) (Fin roll_max)
    (Fin (-1)) (Fin 1) (Fin (-1)) (Fin 1) (Fin (-96)) (Fin 96)
    (Fin 0) (Fin 0) (Fin 0) (Fin 0) (Fin 0) (Fin roll) (Fin 200).
