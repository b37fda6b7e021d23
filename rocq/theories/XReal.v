(** Instance [XR]: exact real arithmetic with the IEEE special values. Rounding is
    idealised away except for the explicit float32 casts of the code, which go through
    the parameter [r32]. There is no signed zero. *)
From Coq Require Import ZArith Reals Bool.
From Flocq Require Import Core.Raux.
From Verif Require Import PyBase Num.
Local Open Scope R_scope.

Inductive xr : Type := Fin (r : R) | PInf | NInf | NaN.

Definition xneg (a : xr) : xr :=
  match a with Fin x => Fin (- x) | PInf => NInf | NInf => PInf | NaN => NaN end.

Definition xadd (a b : xr) : xr :=
  match a, b with
  | Fin x, Fin y => Fin (x + y)
  | NaN, _ | _, NaN => NaN
  | PInf, NInf | NInf, PInf => NaN
  | PInf, _ | _, PInf => PInf
  | NInf, _ | _, NInf => NInf
  end.

Definition xsub (a b : xr) : xr :=
  match a, b with
  | Fin x, Fin y => Fin (x - y)
  | _, _ => xadd a (xneg b)
  end.

(** Infinity times a finite number. *)
Definition xinf_mul (pos : bool) (y : R) : xr :=
  if Req_bool y 0 then NaN
  else if Bool.eqb pos (Rlt_bool 0 y) then PInf else NInf.

Definition xmul (a b : xr) : xr :=
  match a, b with
  | Fin x, Fin y => Fin (x * y)
  | NaN, _ | _, NaN => NaN
  | PInf, Fin y => xinf_mul true y
  | NInf, Fin y => xinf_mul false y
  | Fin x, PInf => xinf_mul true x
  | Fin x, NInf => xinf_mul false x
  | PInf, PInf | NInf, NInf => PInf
  | PInf, NInf | NInf, PInf => NInf
  end.

Definition xdiv (a b : xr) : xr :=
  match a, b with
  | Fin x, Fin y =>
      if Req_bool y 0 then
        (if Req_bool x 0 then NaN else if Rlt_bool 0 x then PInf else NInf)
      else Fin (x / y)
  | NaN, _ | _, NaN => NaN
  | Fin _, _ => Fin 0
  | PInf, Fin y => if Rlt_bool y 0 then NInf else PInf
  | NInf, Fin y => if Rlt_bool y 0 then PInf else NInf
  | _, _ => NaN
  end.

Definition xabs (a : xr) : xr :=
  match a with Fin x => Fin (Rabs x) | NaN => NaN | _ => PInf end.

Definition xltb (a b : xr) : bool :=
  match a, b with
  | Fin x, Fin y => Rlt_bool x y
  | NaN, _ | _, NaN => false
  | NInf, NInf | PInf, PInf => false
  | NInf, _ | _, PInf => true
  | _, _ => false
  end.

Definition xleb (a b : xr) : bool :=
  match a, b with
  | Fin x, Fin y => Rle_bool x y
  | NaN, _ | _, NaN => false
  | NInf, _ | _, PInf => true
  | _, _ => false
  end.

Definition xeqb (a b : xr) : bool :=
  match a, b with
  | Fin x, Fin y => Req_bool x y
  | PInf, PInf | NInf, NInf => true
  | _, _ => false
  end.

Definition xisnan (a : xr) : bool := match a with NaN => true | _ => false end.

(** a % b with a finite divisor; the sign of the result is the sign of b. *)
Definition xmod (a b : xr) : xr :=
  match a, b with
  | Fin x, Fin y => if Req_bool y 0 then NaN else Fin (x - y * IZR (Zfloor (x / y)))
  | Fin x, PInf => if Rlt_bool x 0 then PInf else Fin x
  | Fin x, NInf => if Rlt_bool 0 x then NInf else Fin x
  | _, _ => NaN
  end.

Definition xfun (f : R -> R) (a : xr) : xr :=
  match a with Fin x => Fin (f x) | _ => NaN end.

(** tan has no value at its poles in the exact model. *)
Definition xtan (a : xr) : xr :=
  match a with
  | Fin x => if Req_bool (cos x) 0 then NaN else Fin (tan x)
  | _ => NaN
  end.

Definition xasin (a : xr) : xr :=
  match a with
  | Fin x => if Rle_bool (Rabs x) 1 then Fin (asin x) else NaN
  | _ => NaN
  end.

Definition xsqrt (a : xr) : xr :=
  match a with
  | Fin x => if Rlt_bool x 0 then NaN else Fin (sqrt x)
  | PInf => PInf
  | _ => NaN
  end.

(** Power with a finite non-integer exponent, as used by adc.py; a negative base has
    no real value. *)
Definition xpow (a b : xr) : xr :=
  match a, b with
  | Fin x, Fin y =>
      if Rlt_bool 0 x then Fin (Rpower x y)
      else if Req_bool x 0 then
        (if Rlt_bool 0 y then Fin 0 else if Req_bool y 0 then Fin 1 else PInf)
      else NaN
  | PInf, Fin y => if Rlt_bool 0 y then PInf else if Req_bool y 0 then Fin 1 else Fin 0
  | _, _ => NaN
  end.

Definition xfloorZ (a : xr) : res Z :=
  match a with
  | Fin x => Ok (Zfloor x)
  | NaN => Err ValueError
  | _ => Err OverflowError
  end.
Definition xceilZ (a : xr) : res Z :=
  match a with
  | Fin x => Ok (Zceil x)
  | NaN => Err ValueError
  | _ => Err OverflowError
  end.

Section Inst.
  Variable r32 : R -> xr.
  Definition xf32 (a : xr) : xr := match a with Fin x => r32 x | _ => a end.

  Definition XR : Num xr := {|
    nadd := xadd; nsub := xsub; nmul := xmul; ndiv := xdiv; nneg := xneg; nabs := xabs;
    nltb := xltb; nleb := xleb; neqb := xeqb; nisnan := xisnan; nmod := xmod;
    npinf := PInf; nninf := NInf; nnan := NaN; npi := Fin PI;
    nlit := fun z p => Fin (IZR z / IZR (Zpos p));
    nsin := xfun sin; ncos := xfun cos; ntan := xtan; nasin := xasin; nsqrt := xsqrt;
    npow := xpow; nf32 := xf32; nfloorZ := xfloorZ; nceilZ := xceilZ
  |}.
End Inst.
