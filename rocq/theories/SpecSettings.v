(** Specification vocabulary: integration settings. Nothing here is used by the model. *)
From Coq Require Import String List Bool Arith ZArith.
From Verif Require Import PyBase Num Arr BaseModel Classes.
Import ListNotations.
Local Open Scope string_scope.

(** The documented combinations: "RK45" with any number of samples, "RK45_JAX" with use_jax and
    "Euler" without samples. *)
Definition documented_settings (method : string) (samples : Z) (jax : bool) : Prop :=
  method = "RK45" \/ (method = "RK45_JAX" /\ jax = true /\ (samples <= 0)%Z) \/ (method = "Euler" /\ (samples <= 0)%Z).

(** Library classes with an [__eq__] of their own or inherited from the library. *)
Definition compares_by_value (c : cls) : Prop :=
  lib c <> BaseEntityC /\ lib c <> BaseRotationEntityC.
(** Members a user class adds. *)
Fixpoint added (c : cls) : list string :=
  match c with UserC b defs => defs ++ added b | _ => [] end.
