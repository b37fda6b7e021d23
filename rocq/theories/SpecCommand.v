(** Vocabulary of C105. *)
From Coq Require Import List Reals.
From Verif Require Import Arr XReal.

(** Component [i] of the reported state derivative is the number [r]. *)
Definition rate_is (sd : arr xr) (i : nat) (r : R) : Prop :=
  exists l, sd = A1 l /\ nth_error l i = Some (Fin r).
