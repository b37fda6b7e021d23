(** Specification vocabulary: displaced vehicles. Nothing here is used by the model. *)
From Coq Require Import String List Bool Arith ZArith Reals.
From Verif Require Import PyBase Num Arr BaseModel XReal.
Import ListNotations.
Local Open Scope R_scope.

(** The vector [l] displaced by [cs]. *)
Definition displace (cs : list R) (l : list xr) : list xr := zipw (fun x c => xadd x (Fin c)) l cs.

(** A vector field of dimension [length cs] that is the same at displaced points. *)
Definition uniform_field (cs : list R) (f : xr -> arr xr -> res (arr xr)) : Prop :=
  forall t l, length l = length cs ->
    f t (A1 (displace cs l)) = f t (A1 l) /\
    (forall x, f t (A1 l) = Ok x -> exists k, x = A1 k /\ length k = length cs).

(** The solvers of [w] do not look at absolute values: for a field that is the same at displaced
    points, a displaced start gives displaced rows (and the same exceptions). True of every
    method with fixed steps; a step size control with tolerances relative to the state need not
    have this property. *)
Definition blind_solver (cs : list R) (w : world xr) : Prop :=
  forall f l, uniform_field cs f -> length l = length cs ->
  (forall h te,
     match w_solve_ivp w f h (A1 l) te, w_solve_ivp w f h (A1 (displace cs l)) te with
     | Ok s, Ok s' => sol_y s' = map (displace cs) (sol_y s) /\
                      Forall (fun r => length r = length cs) (sol_y s)
     | Err x, Err y => x = y
     | _, _ => False
     end) /\
  (forall ts,
     match w_odeint w (fun x t => f t x) (A1 l) ts, w_odeint w (fun x t => f t x) (A1 (displace cs l)) ts with
     | Ok s, Ok s' => s' = map (displace cs) s /\ Forall (fun r => length r = length cs) s
     | Err x, Err y => x = y
     | _, _ => False
     end).

(** Two runs end in displaced states with the same derivative, or raise the same exception. *)
Definition displaced_result (cs : list R) (r1 r2 : res (entity xr)) : Prop :=
  match r1, r2 with
  | Ok e1, Ok e2 => exists l, e_state e1 = A1 l /\ length l = length cs /\
                      e_state e2 = A1 (displace cs l) /\ e_sdot e2 = e_sdot e1
  | Err x, Err y => x = y
  | _, _ => False
  end.

(** Either no solver is involved or it is blind to the displacement. *)
Definition solver_ok (method : string) (cs : list R) (w : world xr) : Prop :=
  method = "Euler"%string \/ blind_solver cs w.

(** All runs of two vehicles; constructors may raise. *)
Definition displaced_runs (cs : list R) (w : world xr) (c1 c2 : res (entity xr)) : Prop :=
  forall acts, displaced_result cs (e <- c1 ;; run (N := XR Fin) w e acts) (e <- c2 ;; run (N := XR Fin) w e acts).
