(** Numbers. Every modelled function is written once over [Num T]; see
    DESIGN.md for the two instances (exact reals with special values, binary64). *)
From Coq Require Import ZArith Bool List.
From Verif Require Import PyBase.

Class Num (T : Type) : Type := {
  nadd : T -> T -> T;
  nsub : T -> T -> T;
  nmul : T -> T -> T;
  ndiv : T -> T -> T;          (* numpy division: x/0 is inf or nan *)
  nneg : T -> T;
  nabs : T -> T;
  nltb : T -> T -> bool;
  nleb : T -> T -> bool;
  neqb : T -> T -> bool;
  nisnan : T -> bool;
  nmod : T -> T -> T;          (* Python/numpy % : result has the divisor's sign *)
  npinf : T;
  nninf : T;
  nnan : T;
  npi : T;                     (* np.pi *)
  nlit : Z -> positive -> T;   (* decimal literal num/den *)
  nsin : T -> T;
  ncos : T -> T;
  ntan : T -> T;
  nasin : T -> T;
  nsqrt : T -> T;
  npow : T -> T -> T;          (* non-integer power of a non-negative base *)
  nf32 : T -> T;               (* conversion to float32 and back *)
  nfloorZ : T -> res Z;        (* int(np.floor(x)) *)
  nceilZ : T -> res Z          (* int(np.ceil(x)) *)
}.

Declare Scope num_scope.
Delimit Scope num_scope with num.
Infix "+" := nadd : num_scope.
Infix "-" := nsub : num_scope.
Infix "*" := nmul : num_scope.
Infix "/" := ndiv : num_scope.
Notation "- x" := (nneg x) : num_scope.
Infix "<?" := nltb : num_scope.
Infix "<=?" := nleb : num_scope.
Infix "=?" := neqb : num_scope.

Section Derived.
  Context {T : Type} {N : Num T}.

  (** Integer literal. *)
  Definition nZ (z : Z) : T := nlit z 1.
  Definition n0 : T := nZ 0.
  Definition n1 : T := nZ 1.

  (** Python float / int division: raises on a zero divisor. *)
  Definition pydiv (a b : T) : res T :=
    if neqb b n0 then Err ZeroDivisionError else Ok (ndiv a b).

  (** numpy 1.26 clip kernels (numpy/_core/src/umath/clip.cpp):
      MAX(a,b) = isnan a ? a : (a > b ? a : b), MIN(a,b) = isnan a ? a : (a < b ? a : b). *)
  Definition np_max_clip (a b : T) : T :=
    if nisnan a then a else if nltb b a then a else b.
  Definition np_min_clip (a b : T) : T :=
    if nisnan a then a else if nltb a b then a else b.
  Definition clip1 (x lo hi : T) : T := np_min_clip (np_max_clip x lo) hi.

  (** Python builtins [min(a, b)] and [max(a, b)]. *)
  Definition py_min (a b : T) : T := if nltb b a then b else a.
  Definition py_max (a b : T) : T := if nltb a b then b else a.
End Derived.

(** Order laws that hold in both instances; the limit theorems need nothing else. *)
Class NumOrd (T : Type) {N : Num T} : Prop := {
  nan_ltb_l : forall x y, nisnan x = true -> nltb x y = false;
  nan_ltb_r : forall x y, nisnan y = true -> nltb x y = false;
  nan_leb_l : forall x y, nisnan x = true -> nleb x y = false;
  nan_leb_r : forall x y, nisnan y = true -> nleb x y = false;
  leb_ltb : forall x y, nisnan x = false -> nisnan y = false ->
            nleb x y = negb (nltb y x);
  ltb_asym : forall x y, nltb x y = true -> nltb y x = false;
  leb_trans : forall x y z, nleb x y = true -> nleb y z = true -> nleb x z = true;
  eqb_leb : forall x y, neqb x y = (nleb x y && nleb y x)%bool;
  leb_pinf : forall x, nisnan x = false -> nleb x npinf = true;
  leb_ninf : forall x, nisnan x = false -> nleb nninf x = true;
  n0_not_nan : nisnan n0 = false
}.

(** Laws of negation that hold in both instances. *)
Class NumNeg (T : Type) {N : Num T} : Prop := {
  leb_neg : forall x y, nleb (nneg y) (nneg x) = nleb x y;
  nan_neg : forall x, nisnan (nneg x) = nisnan x;
  leb_neg0 : nleb (nneg n0) n0 = true;
  pinf_not_nan : nisnan npinf = false;
  nan_isnan : nisnan nnan = true
}.
