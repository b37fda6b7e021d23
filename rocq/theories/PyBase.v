(** Python-level notions shared by every model file: exceptions as values.
    Only the exception classes that the modelled code can raise are listed. *)
From Coq Require Import String List ZArith Bool.
Import ListNotations.

Inductive exn : Type :=
| AssertionError | KeyError | ValueError | IndexError | TypeError
| ZeroDivisionError | ImportError | OverflowError | UnboundLocalError
| AttributeError | NotImplementedError.

(** Result of a Python call: a value or a raised exception. *)
Inductive res (A : Type) : Type :=
| Ok (a : A)
| Err (e : exn).
Arguments Ok {A} a.
Arguments Err {A} e.

Definition bind {A B} (r : res A) (f : A -> res B) : res B :=
  match r with Ok a => f a | Err e => Err e end.

Notation "x <- r ;; k" := (bind r (fun x => k))
  (at level 61, r at next level, right associativity).
Notation "' p <- r ;; k" := (bind r (fun p => k))
  (at level 61, p pattern, r at next level, right associativity).

Definition rmap {A B} (f : A -> B) (r : res A) : res B :=
  match r with Ok a => Ok (f a) | Err e => Err e end.

(** [assert b, "..."] *)
Definition py_assert (b : bool) : res unit :=
  if b then Ok tt else Err AssertionError.

(** Evaluate a list of calls left to right, stopping at the first exception. *)
Fixpoint mapM {A B} (f : A -> res B) (l : list A) : res (list B) :=
  match l with
  | [] => Ok []
  | a :: l' => b <- f a ;; bs <- mapM f l' ;; Ok (b :: bs)
  end.

Definition is_ok {A} (r : res A) : bool :=
  match r with Ok _ => true | Err _ => false end.

(** Association-list lookup: [d\[k\]] of a Python dict with string keys. *)
Fixpoint dict_get {A} (k : string) (d : list (string * A)) : option A :=
  match d with
  | [] => None
  | (k', v) :: d' => if String.eqb k k' then Some v else dict_get k d'
  end.
