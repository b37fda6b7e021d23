(** Specification vocabulary: entities that differ in their past only. Nothing here is used by
    the model. *)
From Coq Require Import List.
From Verif Require Import PyBase Num Arr BaseModel SpecBase.

(** Same configuration and same state; derivative and trajectory attributes may differ. *)
Definition alike {T : Type} (e1 e2 : entity T) : Prop := same_config e1 e2 /\ e_state e1 = e_state e2.

(** The results of two runs: the same exception, or entities that are alike and satisfy [P]. *)
Definition runs_alike {T : Type} (P : entity T -> entity T -> Prop) (r1 r2 : res (entity T)) : Prop :=
  match r1, r2 with
  | Ok e1, Ok e2 => alike e1 e2 /\ P e1 e2
  | Err x1, Err x2 => x1 = x2
  | _, _ => False
  end.
