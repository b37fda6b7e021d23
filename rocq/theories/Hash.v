(** Hashing of entities: no file of the library defines [__hash__]; [__eq__] is defined at
    cwh/point_model.py 121, cwh/rotational_model.py 186, cwh/sixdof_model.py 223,
    cwh/sun_model.py 85, integrators.py 69, 125, 219, 318, dubins.py 85, 318, 557. *)
From Coq Require Import String List Bool Arith ZArith.
From Verif Require Import PyBase Num Arr BaseModel Classes.
Import ListNotations.
Local Open Scope string_scope.

(** What Python's class statement stores as [__hash__] in the class itself: the one written in
    the body, or None when the body has [__eq__] only. [None] here means nothing is stored. *)
Definition own_hash (c : cls) : option bool :=
  if mem "__hash__" (own_concrete c) then Some true
  else if mem "__eq__" (own_concrete c) then Some false else None.
(** Lookup along the MRO; [object] ends it with a hash by identity. *)
Fixpoint find_hash (l : list cls) : bool :=
  match l with
  | [] => true
  | c :: l' => match own_hash c with Some b => b | None => find_hash l' end
  end.
(** [hash(o)], and with it [o in some_set], [some_dict[o]]. What a [__hash__] written by the user
    returns is not modelled: it is taken to be the identity. *)
Definition py_hash {T} (o : obj T) : res nat :=
  if find_hash (mro (o_cls o)) then Ok (o_id o) else Err TypeError.
