(** Specification vocabulary used in the property statements. Nothing here is used
    by the model. *)
From Coq Require Import String List Bool Arith ZArith.
From Verif Require Import PyBase Num Arr.
Import ListNotations.

(** Element [i] of an operand as numpy broadcasting presents it: a scalar and a
    length-one vector supply the same element at every index. *)
Definition bnth {A} (a : arr A) (i : nat) : option A :=
  match a with
  | A0 x => Some x
  | A1 [x] => Some x
  | A1 l => nth_error l i
  end.

(** Element [i] without broadcasting. *)
Definition anth {A} (a : arr A) (i : nat) : option A :=
  match a with
  | A0 x => match i with O => Some x | _ => None end
  | A1 l => nth_error l i
  end.

Section Limits.
  Context {T : Type} {N : Num T}.

  (** Limits are ordered element by element (in particular not NaN). *)
  Definition limits_ok (lo hi : arr T) : Prop :=
    forall i l h, bnth lo i = Some l -> bnth hi i = Some h -> nleb l h = true.

  (** Every element is NaN or between the limits that broadcasting assigns to it. *)
  Definition in_limits (lo hi c : arr T) : Prop :=
    forall i x l h, bnth c i = Some x -> bnth lo i = Some l -> bnth hi i = Some h ->
      nisnan x = true \/ (nleb l x = true /\ nleb x h = true).

  (** Some element lies strictly outside its limits. *)
  Definition exceeds (lo hi c : arr T) : Prop :=
    exists i x, anth c i = Some x /\
      ((exists l, bnth lo i = Some l /\ nltb x l = true) \/
       (exists h, bnth hi i = Some h /\ nltb h x = true)).

  (** Same shape and numerically equal elements. *)
  Definition arr_eq (a b : arr T) : Prop :=
    match a, b with
    | A0 x, A0 y => neqb x y = true
    | A1 l, A1 m => Forall2 (fun x y => neqb x y = true) l m
    | _, _ => False
    end.
End Limits.
