(** Instance [F64]: IEEE 754 binary64, round to nearest even (Flocq). The libm
    functions are parameters. *)
From Coq Require Import ZArith Reals Bool.
From Flocq Require Import Core.Core IEEE754.BinarySingleNaN.
From Verif Require Import PyBase Num.

Definition f64 : Type := binary_float 53 1024.

Global Instance prec53_gt0 : Prec_gt_0 53 := eq_refl.
Global Instance prec53_lt : Prec_lt_emax 53 1024 := eq_refl.
Global Instance prec24_gt0 : Prec_gt_0 24 := eq_refl.
Global Instance prec24_lt : Prec_lt_emax 24 128 := eq_refl.

(** m * 2^e rounded to binary64; the sign of a zero result is positive. *)
Definition f64_of (m e : Z) : f64 := binary_normalize 53 1024 _ _ mode_NE m e false.

Definition signed (s : bool) (m : positive) : Z := if s then Zneg m else Zpos m.

(** Conversion to float32 and back. *)
Definition f64_to_f32 (x : f64) : binary_float 24 128 :=
  match x with
  | B754_zero s => B754_zero s
  | B754_infinity s => B754_infinity s
  | B754_nan => B754_nan
  | B754_finite s m e _ => binary_normalize 24 128 _ _ mode_NE (signed s m) e s
  end.
Definition f64_from_f32 (x : binary_float 24 128) : f64 :=
  match x with
  | B754_zero s => B754_zero s
  | B754_infinity s => B754_infinity s
  | B754_nan => B754_nan
  | B754_finite s m e _ => binary_normalize 53 1024 _ _ mode_NE (signed s m) e s
  end.
Definition f64_f32 (x : f64) : f64 := f64_from_f32 (f64_to_f32 x).

Definition f64_is_zero (x : f64) : bool :=
  match x with B754_zero _ => true | _ => false end.

(** C fmod on finite operands: exact remainder of the truncated quotient. *)
Definition f64_fmod (a b : f64) : f64 :=
  match a, b with
  | B754_nan, _ | _, B754_nan | B754_infinity _, _ | _, B754_zero _ => B754_nan
  | B754_zero s, _ => B754_zero s
  | _, B754_infinity _ => a
  | B754_finite sa ma ea _, B754_finite _ mb eb _ =>
      let e := Z.min ea eb in
      let A := (signed sa ma * 2 ^ (ea - e))%Z in
      let B := (Zpos mb * 2 ^ (eb - e))%Z in
      binary_normalize 53 1024 _ _ mode_NE (Z.rem A B) e sa
  end.

(** numpy's npy_remainder: fmod, then one addition of the divisor when the signs
    differ; a zero result takes the divisor's sign. *)
Definition f64_mod (a b : f64) : f64 :=
  let m := f64_fmod a b in
  match m with
  | B754_nan => B754_nan
  | B754_zero _ => B754_zero (Bsign b)
  | _ => if Bool.eqb (Bsign b) (Bsign m) then m else Bplus mode_NE m b
  end.

Definition f64_floorZ (x : f64) : res Z :=
  match x with
  | B754_zero _ => Ok 0%Z
  | B754_infinity _ => Err OverflowError
  | B754_nan => Err ValueError
  | B754_finite s m e _ =>
      Ok (if (0 <=? e)%Z then (signed s m * 2 ^ e)%Z else (signed s m / 2 ^ (- e))%Z)
  end.
Definition f64_ceilZ (x : f64) : res Z :=
  match f64_floorZ (Bopp x) with Ok z => Ok (- z)%Z | Err e => Err e end.

(** Functions of the C library whose results are not specified by IEEE 754. *)
Record libm : Type := {
  lm_sin : f64 -> f64; lm_cos : f64 -> f64; lm_tan : f64 -> f64;
  lm_asin : f64 -> f64; lm_pow : f64 -> f64 -> f64
}.

(** np.pi is 884279719003555 / 2^48. *)
Definition f64_pi : f64 := f64_of 884279719003555 (-48).

Section Inst.
  Variable lm : libm.
  Definition F64 : Num f64 := {|
    nadd := Bplus mode_NE; nsub := Bminus mode_NE; nmul := Bmult mode_NE;
    ndiv := Bdiv mode_NE; nneg := Bopp; nabs := Babs;
    nltb := Bltb; nleb := Bleb; neqb := Beqb; nisnan := fun x => is_nan x; nmod := f64_mod;
    npinf := B754_infinity false; nninf := B754_infinity true; nnan := B754_nan;
    npi := f64_pi;
    nlit := fun z p => Bdiv mode_NE (f64_of z 0) (f64_of (Zpos p) 0);
    nsin := lm_sin lm; ncos := lm_cos lm; ntan := lm_tan lm; nasin := lm_asin lm;
    nsqrt := Bsqrt mode_NE; npow := lm_pow lm; nf32 := f64_f32;
    nfloorZ := f64_floorZ; nceilZ := f64_ceilZ
  |}.
End Inst.
