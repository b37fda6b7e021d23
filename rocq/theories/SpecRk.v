(** Specification vocabulary for ODE solvers of Runge-Kutta type, in exact arithmetic.
    Nothing here is used by the model. *)
From Coq Require Import String List Bool Arith ZArith Reals.
From Verif Require Import PyBase Num Arr BaseModel XReal.
Import ListNotations.
Local Open Scope R_scope.

(** s + c d, element by element. *)
Definition vaxpy (s : list R) (c : R) (d : list R) : list R := zipw (fun a b => a + c * b) s d.

(** A vector field that is defined and finite at every finite point of dimension [n]. *)
Definition regular (f : xr -> arr xr -> res (arr xr)) (n : nat) : Prop :=
  forall t q, length q = n ->
    exists d, length d = n /\ f (Fin t) (A1 (map Fin q)) = Ok (A1 (map Fin d)).

(** [rk_comb f s0 tau s]: [s] is [s0] plus a linear combination of values of [f], with
    coefficients that sum to [tau]. Every result of a consistent (explicit or implicit)
    Runge-Kutta method after time [tau], with any tableau, any number of substeps and any
    step size control, is of this form; so are the interpolated values of RK45. *)
Inductive rk_comb (f : xr -> arr xr -> res (arr xr)) (s0 : list R) : R -> list R -> Prop :=
| rk_start : rk_comb f s0 0 s0
| rk_add tau s c t q d :
    rk_comb f s0 tau s -> length q = length s0 ->
    f (Fin t) (A1 (map Fin q)) = Ok (A1 (map Fin d)) ->
    rk_comb f s0 (tau + c) (vaxpy s c d).

(** The solvers of [w] are of Runge-Kutta type: each returned row belongs to its time. *)
Definition rk_solver (w : world xr) : Prop :=
  (forall f h s te sol, regular f (length s) ->
     w_solve_ivp w f (Fin h) (A1 (map Fin s)) te = Ok sol ->
     Forall2 (fun t row => exists tau q, t = Fin tau /\ row = map Fin q /\ rk_comb f s tau q)
       (sol_t sol) (sol_y sol)) /\
  (forall f s ts sol, regular (fun t x => f x t) (length s) ->
     w_odeint w f (A1 (map Fin s)) (map Fin ts) = Ok sol ->
     Forall2 (fun t row => exists q, row = map Fin q /\
                rk_comb (fun t x => f x t) s (t - hd 0 ts) q) ts sol).

(** The adaptive solver of [w] reaches the end of the interval, when that is among the
    requested times. *)
Definition reaches_end (w : world xr) : Prop :=
  forall f h s te sol, regular f (length s) ->
    (forall ts, te = Some ts -> last ts NaN = Fin h) ->
    w_solve_ivp w f (Fin h) (A1 (map Fin s)) te = Ok sol -> sol_y sol <> [] ->
    last (sol_t sol) NaN = Fin h.

(** Sum of the step sizes of a run. *)
Definition elapsed (acts : list (R * action xr)) : R := fold_right (fun p x => fst p + x) 0 acts.
Definition fin_acts (acts : list (R * action xr)) : list (xr * action xr) :=
  map (fun p => (Fin (fst p), snd p)) acts.

(** ** Explicit Runge-Kutta methods: a Butcher tableau is a list of stages (node, row of
    coefficients over the previous stages) and the weights. *)
Record tableau : Type := { tb_stages : list (R * list R); tb_weights : list R }.

Section Erk.
  Variable f : xr -> arr xr -> res (arr xr).
  Variable h : R.
  Variable s : arr xr.

  (** s + h * sum of coefficient times slope. *)
  Fixpoint erk_sum (s : arr xr) (cs : list R) (ks : list (arr xr)) : res (arr xr) :=
    match cs, ks with
    | c :: cs', k :: ks' =>
        s' <- bmap2 xadd s (amap (xmul (Fin (h * c))) k) ;; erk_sum s' cs' ks'
    | _, _ => Ok s
    end.
  Fixpoint erk_slopes (st : list (R * list R)) (ks : list (arr xr)) : res (list (arr xr)) :=
    match st with
    | [] => Ok ks
    | (c, a) :: st' =>
        q <- erk_sum s a ks ;; k <- f (Fin (c * h)) q ;; erk_slopes st' (ks ++ [k])
    end.
  Definition erk_step (tb : tableau) : res (list xr) :=
    ks <- erk_slopes (tb_stages tb) [] ;;
    r <- erk_sum s (tb_weights tb) ks ;;
    match r with A1 l => Ok l | A0 _ => Err ValueError end.
End Erk.

(** A world whose solvers take one step of the method per requested time. *)
Definition real_of (x : xr) : R := match x with Fin r => r | _ => 0 end.
Definition erk_world (tb : tableau) : world xr :=
  {| w_solve_ivp := fun f h s te =>
       let ts := match te with None => [h] | Some ts => ts end in
       rows <- mapM (fun t => erk_step f (real_of t) s tb) ts ;;
       Ok {| sol_t := map (fun t => Fin (real_of t)) ts; sol_y := rows; sol_success := true |};
     w_odeint := fun f s ts =>
       mapM (fun t => erk_step (fun t x => f x t) (real_of t - real_of (hd (Fin 0) ts)) s tb) ts;
     w_jax := true |}.
(** One weight per stage, and the weights sum to one. *)
Definition consistent (tb : tableau) : Prop :=
  length (tb_weights tb) = length (tb_stages tb) /\ fold_right Rplus 0 (tb_weights tb) = 1.

(** The classical fourth order method. *)
Definition rk4 : tableau :=
  {| tb_stages := [(0, []); (1/2, [1/2]); (1/2, [0; 1/2]); (1, [0; 0; 1])];
     tb_weights := [1/6; 1/3; 1/3; 1/6] |}.
