(** Model of safe_autonomy_dynamics/utils.py. *)
From Coq Require Import String List Bool Arith ZArith.
From Verif Require Import PyBase Num Arr.
Import ListNotations.

Section Utils.
  Context {T : Type} {N : Num T}.

  (** A Python number as it may occur in an argument list. *)
  Inductive pynum : Type := PyInt (z : Z) | PyFloat (x : T).

  (** An n-dimensional array: shape, element type is float64 or not, and the elements in
      row-major order; [None] when the memory is uninitialised. *)
  Record nd : Type := { nd_shape : list nat; nd_is_f64 : bool; nd_data : option (list T) }.

  Inductive numarg : Type :=
  | NAnum (p : pynum)
  | NAlist (l : list pynum)
  | NAarr (a : nd)
  | NAother.

  Definition pyfloat (p : pynum) : T := match p with PyInt z => nZ z | PyFloat x => x end.

  (** [np.ndarray(l)] interprets [l] as a shape: floats raise TypeError, negative
      dimensions raise ValueError, and the array is uninitialised. *)
  Fixpoint shape_of_list (l : list pynum) : res (list nat) :=
    match l with
    | [] => Ok []
    | PyFloat _ :: _ => Err TypeError
    | PyInt z :: l' =>
        s <- shape_of_list l' ;;
        if (z <? 0)%Z then Err ValueError else Ok (Z.to_nat z :: s)
    end.

  Fixpoint shape_eqb (a b : list nat) : bool :=
    match a, b with
    | [], [] => true
    | x :: a', y :: b' => Nat.eqb x y && shape_eqb a' b'
    | _, _ => false
    end.

  Definition size_of (s : list nat) : nat := fold_right Nat.mul 1 s.

  (** number_list_to_np (utils.py 20-51) with dtype float64. *)
  Definition number_list_to_np (v : numarg) (shape : list nat) : res nd :=
    out <- match v with
           | NAarr a => Ok a
           | NAlist l =>
               s <- shape_of_list l ;; Ok {| nd_shape := s; nd_is_f64 := true; nd_data := None |}
           | NAnum p =>
               Ok {| nd_shape := shape; nd_is_f64 := true;
                     nd_data := Some (repeat (nmul (pyfloat p) n1) (size_of shape)) |}
           | NAother => Err TypeError
           end ;;
    _ <- py_assert (shape_eqb (nd_shape out) shape) ;;
    _ <- py_assert (nd_is_f64 out) ;;
    Ok out.
End Utils.
Arguments pynum T : clear implicits.
Arguments numarg T : clear implicits.
Arguments nd T : clear implicits.
