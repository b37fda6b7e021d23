(** Specification vocabulary: dynamics that do not depend on the clock. Nothing here is
    used by the model. *)
From Verif Require Import PyBase Num Arr BaseModel.

(** The derivative is the same function of state and control at all times. *)
Definition autonomous {T : Type} {N : Num T} (d : dyn T) : Prop :=
  forall t t' s u, compute_state_dot d t s u = compute_state_dot d t' s u.
