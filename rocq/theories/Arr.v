(** numpy arrays of dimension 0 and 1 with broadcasting, and matrices as lists of
    rows. Arrays of dimension 2 or more are not modelled as operands of elementwise
    operations (the library only uses vectors there). *)
From Coq Require Import List Bool Arith ZArith.
From Verif Require Import PyBase Num.
Import ListNotations.

Inductive arr (A : Type) : Type :=
| A0 (x : A)
| A1 (l : list A).
Arguments A0 {A} x.
Arguments A1 {A} l.

Fixpoint zipw {A B C} (f : A -> B -> C) (l : list A) (m : list B) : list C :=
  match l, m with
  | a :: l', b :: m' => f a b :: zipw f l' m'
  | _, _ => []
  end.

(** Elementwise binary operation with numpy broadcasting of shapes () and (n,);
    incompatible shapes raise ValueError. *)
Definition bmap2 {A B C} (f : A -> B -> C) (a : arr A) (b : arr B) : res (arr C) :=
  match a, b with
  | A0 x, A0 y => Ok (A0 (f x y))
  | A0 x, A1 m => Ok (A1 (map (f x) m))
  | A1 l, A0 y => Ok (A1 (map (fun x => f x y) l))
  | A1 l, A1 m =>
      if Nat.eqb (length l) (length m) then Ok (A1 (zipw f l m))
      else match l, m with
           | [x], _ => Ok (A1 (map (f x) m))
           | _, [y] => Ok (A1 (map (fun x => f x y) l))
           | _, _ => Err ValueError
           end
  end.

Definition amap {A B} (f : A -> B) (a : arr A) : arr B :=
  match a with A0 x => A0 (f x) | A1 l => A1 (map f l) end.

(** [np.any] *)
Definition any (a : arr bool) : bool :=
  match a with A0 b => b | A1 l => existsb (fun b => b) l end.

(** [np.where(c, x, y)] with three-way broadcasting. *)
Definition np_where {A} (c : arr bool) (x y : arr A) : res (arr A) :=
  xy <- bmap2 pair x y ;;
  bmap2 (fun (b : bool) (p : A * A) => if b then fst p else snd p) c xy.

Section NumArr.
  Context {T : Type} {N : Num T}.

  (** [np.clip(x, lo, hi)] with broadcasting. *)
  Definition np_clip (x lo hi : arr T) : res (arr T) :=
    m <- bmap2 np_max_clip x lo ;; bmap2 np_min_clip m hi.

  (** Inner product of equally long lists, accumulated left to right. The
      accumulation order of numpy's matmul is not specified; it only matters for
      rounding. *)
  Fixpoint dot_acc (acc : T) (l m : list T) : T :=
    match l, m with
    | a :: l', b :: m' => dot_acc (nadd acc (nmul a b)) l' m'
    | _, _ => acc
    end.
  Definition dot (l m : list T) : T := dot_acc n0 l m.

  (** [M @ v]: a 0-d operand or a length mismatch raises ValueError. *)
  Definition matvec (M : list (list T)) (v : arr T) : res (arr T) :=
    match v with
    | A0 _ => Err ValueError
    | A1 l =>
        if forallb (fun r => Nat.eqb (length r) (length l)) M
        then Ok (A1 (map (fun r => dot r l) M))
        else Err ValueError
    end.

  (** [np.zeros_like] *)
  Definition zeros_like (a : arr T) : arr T := amap (fun _ => n0) a.
End NumArr.
