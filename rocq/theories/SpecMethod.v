(** Specification vocabulary for comparing integration methods. Nothing here is used by the
    model. *)
From Coq Require Import String List Bool Arith ZArith Reals.
From Verif Require Import PyBase Num Arr BaseModel XReal SpecRk.
Import ListNotations.
Local Open Scope R_scope.

(** scipy's and jax's solver are one and the same numerical method: for vector fields that
    agree at every finite point they return the same final row. *)
Definition same_method (r32 : R -> xr) (w : world xr) : Prop :=
  forall f g h s, regular f (length s) ->
    (forall t q, length q = length s -> g (A1 (map Fin q)) (Fin t) = f (Fin t) (A1 (map Fin q))) ->
    exists sol rows rows' l, length l = length s /\
      w_solve_ivp w f (Fin h) (A1 (map Fin s)) None = Ok sol /\ sol_y sol = rows ++ [map Fin l] /\
      w_odeint w g (A1 (map Fin s)) (jax_times (N := XR r32) (Fin h)) = Ok (rows' ++ [map Fin l]).

(** The same dynamics object with another integration method. *)
Definition with_method (d : dyn xr) (m : string) : dyn xr :=
  {| d_min := d_min d; d_max := d_max d; d_wrap := d_wrap d; d_use_jax := d_use_jax d; d_samples := d_samples d;
     d_sdmin := d_sdmin d; d_sdmax := d_sdmax d; d_method := m; d_raw := d_raw d |}.
(** The same entity with another integration method. *)
Definition entity_with_method (e : entity xr) (m : string) : entity xr :=
  {| e_dyn := with_method (e_dyn e) m; e_default := e_default e; e_cmin := e_cmin e; e_cmax := e_cmax e;
     e_cmap := e_cmap e; e_state := e_state e; e_sdot := e_sdot e; e_traj := e_traj e |}.

(** Midpoint method. *)
Definition midpoint : tableau := {| tb_stages := [(0, []); (1/2, [1/2])]; tb_weights := [0; 1] |}.

(** Arithmetic in which "not a number" is contagious. *)
Class NumNan (T : Type) {N : Num T} : Prop := {
  nan_add_l : forall x y : T, nisnan x = true -> nisnan (nadd x y) = true;
  nan_add_r : forall x y : T, nisnan y = true -> nisnan (nadd x y) = true;
  nan_mul_l : forall x y : T, nisnan x = true -> nisnan (nmul x y) = true;
  nan_mul_r : forall x y : T, nisnan y = true -> nisnan (nmul x y) = true
}.

(** A state of six elements none of which is a number. *)
Definition all_nan {T} {N : Num T} (a : arr T) : Prop :=
  exists l, a = A1 l /\ length l = 6%nat /\ Forall (fun x => nisnan x = true) l.
