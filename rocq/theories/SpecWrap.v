(** Specification vocabulary for angle wrapping. Nothing here is used by the model. *)
From Coq Require Import String List Bool Arith ZArith Reals.
From Verif Require Import PyBase Num Arr BaseModel XReal.
Import ListNotations.

(** The same entity with other wrap centers: what a step would have produced without
    wrapping. *)
Definition set_wrap {T} (e : entity T) (c : option (arr T)) : entity T :=
  {| e_dyn := {| d_min := d_min (e_dyn e); d_max := d_max (e_dyn e); d_wrap := c;
                 d_use_jax := d_use_jax (e_dyn e); d_samples := d_samples (e_dyn e);
                 d_sdmin := d_sdmin (e_dyn e); d_sdmax := d_sdmax (e_dyn e);
                 d_method := d_method (e_dyn e); d_raw := d_raw (e_dyn e) |};
     e_default := e_default e; e_cmin := e_cmin e; e_cmax := e_cmax e; e_cmap := e_cmap e;
     e_state := e_state e; e_sdot := e_sdot e; e_traj := e_traj e |}.

(** Same direction: the angles differ by a whole number of turns. *)
Definition same_angle (a b : R) : Prop := exists k : Z, (a = b + 2 * PI * IZR k)%R.
