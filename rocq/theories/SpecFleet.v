(** Programs that use several entities and arrays of their own, executed against the heap model
    and against immutable values. Nothing here is used by the model. *)
From Coq Require Import String List Bool Arith ZArith.
From Verif Require Import PyBase Num Arr BaseModel Cwh Heap SpecHeap.
Import ListNotations.

Section SF.
  Context {T : Type} {N : Num T}.

  (** Create another entity, or do something (SpecHeap.v) with entity number [i]. The arrays
      are common to all: what one entity handed out may be given to another. *)
  Inductive fop : Type :=
  | FMake (d : dyn T) (cdef cmin cmax : arr T) (cmap : option (list (string * nat))) (s0 : arr T)
  | FOp (i : nat) (o : cop T).

  (** Values: an operation on one entity replaces that entity and leaves the others alone. *)
  Definition vfleet (w : world T) (es : list (entity T)) (store : list (arr T)) (o : fop)
    : list (entity T) * list (arr T) * cout :=
    match o with
    | FMake d cdef cmin cmax cmap s0 => (es ++ [mk_entity d cdef cmin cmax cmap s0], store, ODone)
    | FOp i o =>
        match nth_error es i with
        | None => (es, store, ODone)
        | Some e => let '(e', store', x) := vexec w e store o in (upd es i e', store', x)
        end
    end.
  (** References into one heap. *)
  Definition hfleet (w : world T) (H : heap T) (Es : list (hent T)) (env : list loc) (o : fop)
    : heap T * list (hent T) * list loc * cout :=
    match o with
    | FMake d cdef cmin cmax cmap s0 =>
        let '(H, E) := hmk H d cdef cmin cmax cmap s0 in (H, Es ++ [E], env, ODone)
    | FOp i o =>
        match nth_error Es i with
        | None => (H, Es, env, ODone)
        | Some E => let '(H', E', env', x) := hexec w H E env o in (H', upd Es i E', env', x)
        end
    end.

  Fixpoint vfleet_all (w : world T) (es : list (entity T)) (store : list (arr T)) (l : list fop)
    : list (entity T) * list (arr T) * list cout :=
    match l with
    | [] => (es, store, [])
    | o :: l' => let '(es, store, x) := vfleet w es store o in
                 let '(es, store, xs) := vfleet_all w es store l' in (es, store, x :: xs)
    end.
  Fixpoint hfleet_all (w : world T) (H : heap T) (Es : list (hent T)) (env : list loc) (l : list fop)
    : heap T * list (hent T) * list loc * list cout :=
    match l with
    | [] => (H, Es, env, [])
    | o :: l' => let '(H, Es, env, x) := hfleet w H Es env o in
                 let '(H, Es, env, xs) := hfleet_all w H Es env l' in (H, Es, env, x :: xs)
    end.
End SF.
Arguments fop T : clear implicits.
