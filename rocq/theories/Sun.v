(** Model of safe_autonomy_dynamics/cwh/sun_model.py. *)
From Coq Require Import String List Bool Arith ZArith.
From Verif Require Import PyBase Num Arr BaseModel Cwh.
Import ListNotations.

Section Sun.
  Context {T : Type} {N : Num T}.

  (** SunDynamics (134-143). *)
  Definition sun_raw (n : T) (_ : T) (_ _ : arr T) : res (arr T) := Ok (A1 [n]).

  Definition sun_dyn (w : world T) (n : T) (method : string) (use_jax : bool) : res (dyn T) :=
    mk_dyn w {| d_min := no_min; d_max := no_max; d_wrap := None; d_use_jax := use_jax;
                d_samples := 0; d_sdmin := no_min; d_sdmax := no_max; d_method := method;
                d_raw := sun_raw n |}.

  (** SunEntity.__init__ and _build_state (72-79, 90-94). *)
  Definition sun_entity (w : world T) (n : T) (method : string) (use_jax : bool) (theta : T)
    : res (entity T) :=
    d <- sun_dyn w n method use_jax ;;
    Ok (mk_entity d (A1 []) no_min no_max None (A1 (map nf32 [theta]))).

  (** [theta] (96-99). *)
  Definition sun_theta (e : entity T) : res T := aidx (e_state e) 0.
End Sun.
