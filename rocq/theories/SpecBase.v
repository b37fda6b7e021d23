(** Specification vocabulary for the entity step. Nothing here is used by the model. *)
From Coq Require Import String List Bool Arith ZArith.
From Verif Require Import PyBase Num Arr BaseModel Spec.
Import ListNotations.

Section SB.
  Context {T : Type} {N : Num T}.

  (** The same entity with another differential equation: used to say which control
      values the equation is evaluated at. *)
  Definition dyn_set_raw (d : dyn T) (raw : T -> arr T -> arr T -> res (arr T)) : dyn T :=
    {| d_min := d_min d; d_max := d_max d; d_wrap := d_wrap d; d_use_jax := d_use_jax d;
       d_samples := d_samples d; d_sdmin := d_sdmin d; d_sdmax := d_sdmax d;
       d_method := d_method d; d_raw := raw |}.
  Definition set_raw (e : entity T) (raw : T -> arr T -> arr T -> res (arr T)) : entity T :=
    {| e_dyn := dyn_set_raw (e_dyn e) raw; e_default := e_default e; e_cmin := e_cmin e;
       e_cmax := e_cmax e; e_cmap := e_cmap e; e_state := e_state e; e_sdot := e_sdot e;
       e_traj := e_traj e |}.

  (** Two outcomes a caller cannot tell apart: same warning, same exception or success,
      same state, derivative and trajectory. *)
  Definition same_outcome (o1 o2 : outcome T) : Prop :=
    o_warned o1 = o_warned o2 /\ o_res o1 = o_res o2 /\
    e_state (o_entity o1) = e_state (o_entity o2) /\
    e_sdot (o_entity o1) = e_sdot (o_entity o2) /\
    e_traj (o_entity o1) = e_traj (o_entity o2).

  (** Everything about an entity except what a successful step is supposed to change. *)
  Definition same_config (e1 e2 : entity T) : Prop :=
    e_dyn e1 = e_dyn e2 /\ e_default e1 = e_default e2 /\ e_cmin e1 = e_cmin e2 /\
    e_cmax e1 = e_cmax e2 /\ e_cmap e1 = e_cmap e2.

  (** A limit that is a scalar or has one entry per element of [c]. *)
  Definition fits (lim c : arr T) : Prop :=
    match lim, c with
    | A0 _, _ => True
    | A1 m, A1 l => length m = length l
    | A1 _, A0 _ => False
    end.

  (** Meaning of a dict action: entry [i] of the control vector is the value given to
      an actuator mapped to [i], and the default when there is none. *)
  Definition dict_control (cmap : list (string * nat)) (items : list (string * T))
             (dflt c : list T) : Prop :=
    length c = length dflt /\
    (forall name v i, In (name, v) items -> dict_get name cmap = Some i -> nth_error c i = Some v) /\
    (forall i, (forall name v, In (name, v) items -> dict_get name cmap <> Some i) ->
       nth_error c i = nth_error dflt i).

  (** Distinct actuator names mean distinct, existing control elements. *)
  Definition cmap_ok (cmap : list (string * nat)) (n : nat) : Prop :=
    (forall k i, dict_get k cmap = Some i -> i < n) /\
    (forall k k' i, dict_get k cmap = Some i -> dict_get k' cmap = Some i -> k = k').

  (** [y] is the saturation of [x]: NaN stays, values outside go to the limit, values
      inside stay (up to the sign of zero). *)
  Definition saturates (lo hi x y : T) : Prop :=
    (nisnan x = true /\ y = x) \/
    (nltb x lo = true /\ neqb y lo = true) \/
    (nltb hi x = true /\ neqb y hi = true) \/
    (nleb lo x = true /\ nleb x hi = true /\ neqb y x = true).

  (** Two outcomes with the same effect, the warning aside. *)
  Definition same_effect (o1 o2 : outcome T) : Prop :=
    o_res o1 = o_res o2 /\ o_entity o1 = o_entity o2.

  (** Same number of dimensions and elements. *)
  Definition same_shape (a b : arr T) : Prop :=
    match a, b with
    | A0 _, A0 _ => True
    | A1 l, A1 m => length l = length m
    | _, _ => False
    end.

  (** Histories: steps (whose exceptions the caller may catch) and assignments to
      [entity.state]. *)
  Inductive op : Type :=
  | OStep (h : T) (a : action T)
  | OSet (v : arr T).
  Definition exec (w : world T) (e : entity T) (o : op) : entity T :=
    match o with
    | OStep h a => o_entity (entity_step w e h a)
    | OSet v => set_state e v
    end.
  Definition exec_all (w : world T) (e : entity T) (l : list op) : entity T :=
    fold_left (exec w) l e.

  (** Element [i] is subject to angle wrapping. *)
  Definition wrapped_at (d : dyn T) (i : nat) : Prop :=
    exists c x, d_wrap d = Some c /\ bnth c i = Some x /\ nisnan x = false.
End SB.
Arguments op T : clear implicits.

(** The same ODE solver, but its success flag always says [b]. *)
Definition with_flag {T} (b : bool) (w : world T) : world T :=
  {| w_solve_ivp := fun f h s te =>
       match w_solve_ivp w f h s te with
       | Ok sol => Ok {| sol_t := sol_t sol; sol_y := sol_y sol; sol_success := b |}
       | Err x => Err x
       end;
     w_odeint := w_odeint w; w_jax := w_jax w |}.
