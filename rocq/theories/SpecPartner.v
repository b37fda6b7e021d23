(** Specification vocabulary for partners. Nothing here is used by the model. *)
From Coq Require Import List Arith Bool.
From Verif Require Import PyBase Num Arr BaseModel Partner.
Import ListNotations.

Section SP.
  Context {T : Type} {N : Num T}.

  Definition is_register (s : pstmt T) : bool := match s with PRegister _ _ => true | _ => false end.
  (** The program without its registrations. *)
  Definition unregistered (prog : list (pstmt T)) : list (pstmt T) := filter (fun s => negb (is_register s)) prog.

  (** Statements speak about objects that exist: [k] objects have been built before. *)
  Fixpoint proper (k : nat) (prog : list (pstmt T)) : Prop :=
    match prog with
    | [] => True
    | PNew _ :: p => proper (S k) p
    | PStep i _ _ :: p | PSet i _ :: p => i < k /\ proper k p
    | PRegister i j :: p => i < k /\ j < k /\ proper k p
    end.

  (** The most recent registration of object [i]. *)
  Fixpoint latest (i : nat) (prog : list (pstmt T)) (found : option nat) : option nat :=
    match prog with
    | [] => found
    | PRegister i' j :: p => latest i p (if Nat.eqb i i' then Some j else found)
    | _ :: p => latest i p found
    end.
End SP.
