(** Model of BaseDubinsAircraft.partner and register_partner (safe_autonomy_dynamics/dubins.py
    79, 94-107): the attribute holds a reference to another entity object. Objects are numbered
    in the order of their creation. *)
From Coq Require Import String List Bool Arith ZArith.
From Verif Require Import PyBase Num Arr BaseModel.
Import ListNotations.

Section Partner.
  Context {T : Type} {N : Num T}.

  (** An aircraft object: the entity and its [partner] attribute (79). *)
  Record craft : Type := { c_entity : entity T; c_partner : option nat }.

  (** Statements of a program that uses several aircraft: build one (the constructor sets the
      partner to None, 79), step one (BaseEntity.step, base_models.py 147-197; exceptions are
      caught by the program), assign its state (211-213), register a partner (107). *)
  Inductive pstmt : Type :=
  | PNew (e : entity T)
  | PStep (i : nat) (h : T) (a : action T)
  | PSet (i : nat) (v : arr T)
  | PRegister (i j : nat).

  Fixpoint put (l : list craft) (i : nat) (c : craft) : list craft :=
    match l, i with
    | [], _ => []
    | _ :: l', O => c :: l'
    | b :: l', S i' => b :: put l' i' c
    end.

  (** One statement; statements about objects that do not exist do nothing. *)
  Definition pexec (w : world T) (fs : list craft) (s : pstmt) : list craft :=
    match s with
    | PNew e => fs ++ [{| c_entity := e; c_partner := None |}]
    | PStep i h a =>
        match nth_error fs i with
        | Some c => put fs i {| c_entity := o_entity (entity_step w (c_entity c) h a); c_partner := c_partner c |}
        | None => fs
        end
    | PSet i v =>
        match nth_error fs i with
        | Some c => put fs i {| c_entity := set_state (c_entity c) v; c_partner := c_partner c |}
        | None => fs
        end
    | PRegister i j =>
        match nth_error fs i with
        | Some c => put fs i {| c_entity := c_entity c; c_partner := Some j |}
        | None => fs
        end
    end.
  Definition pexec_all (w : world T) (prog : list pstmt) : list craft := fold_left (pexec w) prog [].

  (** [aircraft.partner.state]: the state of the object referred to, at the time of reading. *)
  Definition partner_state (fs : list craft) (i : nat) : option (arr T) :=
    match nth_error fs i with
    | Some c => match c_partner c with
                | Some j => option_map (fun c' => e_state (c_entity c')) (nth_error fs j)
                | None => None
                end
    | None => None
    end.
End Partner.
Arguments craft T : clear implicits.
Arguments pstmt T : clear implicits.
