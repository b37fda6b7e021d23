(** Tactics that evaluate model terms over exact reals, and exception-valued worlds used
    in examples. *)
From Coq Require Import String List Bool Arith ZArith Lia Reals Lra.
From Flocq Require Import Core.Core IEEE754.BinarySingleNaN.
From Verif Require Import PyBase Num Arr BaseModel XReal Float64.
Import ListNotations.

(** Decide comparisons between real expressions by linear arithmetic. *)
Ltac xdec :=
  match goal with
  | |- context [Req_bool ?a ?b] =>
      first [rewrite (Req_bool_false a b) by lra | rewrite (Req_bool_true a b) by lra]
  | |- context [Rlt_bool ?a ?b] =>
      first [rewrite (Rlt_bool_false a b) by lra | rewrite (Rlt_bool_true a b) by lra]
  | |- context [Rle_bool ?a ?b] =>
      first [rewrite (Rle_bool_false a b) by lra | rewrite (Rle_bool_true a b) by lra]
  end.
Ltac xstep := repeat first [progress cbn | xdec].

(** A world whose solvers perform one explicit Euler step: a (crude) ODE solver, used to
    exhibit concrete runs. *)
Definition euler_solver {T} {N : Num T} (f : T -> arr T -> res (arr T)) (h : T) (s : arr T)
  : res (list T) :=
  d <- f n0 s ;;
  x <- bmap2 nadd s (amap (nmul h) d) ;;
  match x with A1 l => Ok l | A0 _ => Err ValueError end.
Definition euler_world {T} {N : Num T} : world T :=
  {| w_solve_ivp := fun f h s te =>
       l <- euler_solver f h s ;; Ok {| sol_t := [h]; sol_y := [l]; sol_success := true |};
     w_odeint := fun f s ts =>
       l <- euler_solver (fun t x => f x t) (last ts n0) s ;; Ok [l];
     w_jax := false |}.

(** A libm for concrete binary64 runs of entities that call no libm function. *)
Definition lm0 : libm :=
  {| lm_sin := fun x => x; lm_cos := fun x => x; lm_tan := fun x => x; lm_asin := fun x => x;
     lm_pow := fun x _ => x |}.
(** Decimal literal in binary64. *)
Definition fl (z : Z) (p : positive) : f64 := @nlit f64 (F64 lm0) z p.

(** Compare lists of finite values element by element. *)
Ltac fin_list :=
  repeat match goal with
         | |- Ok _ = Ok _ => apply (f_equal Ok)
         | |- A1 _ = A1 _ => apply (f_equal A1)
         | |- _ :: _ = _ :: _ => apply (f_equal2 cons)
         | |- Fin _ = Fin _ => apply (f_equal Fin)
         | |- [] = [] => reflexivity
         end.
