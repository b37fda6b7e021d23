(** Model of safe_autonomy_dynamics/base_models.py: BaseEntity.step,
    BaseDynamics.step, BaseODESolverDynamics and its subclasses. *)
From Coq Require Import String List Bool Arith ZArith.
From Verif Require Import PyBase Num Arr.
Import ListNotations.

Section Base.
  Context {T : Type} {N : Num T}.

  (** Result object of scipy.integrate.solve_ivp: sample times, one state vector per
      sample time ([sol.y.T]), and the success flag (base_models.py 573-578 never
      reads the flag). *)
  Record ivp_sol : Type := { sol_t : list T; sol_y : list (list T); sol_success : bool }.

  (** External world: the ODE solvers and whether jax can be imported
      (base_models.py 20-36). The theorems quantify over this record. *)
  Record world : Type := {
    w_solve_ivp : (T -> arr T -> res (arr T)) -> T -> arr T -> option (list T) -> res ivp_sol;
    w_odeint : (arr T -> T -> res (arr T)) -> arr T -> list T -> res (list (list T));
    w_jax : bool
  }.

  (** Constructor arguments of BaseDynamics (base_models.py 414-425) and
      BaseODESolverDynamics (502-518), plus the subclass's [_compute_state_dot]
      (546-548). *)
  Record dyn : Type := {
    d_min : arr T;
    d_max : arr T;
    d_wrap : option (arr T);
    d_use_jax : bool;
    d_samples : Z;
    d_sdmin : arr T;
    d_sdmax : arr T;
    d_method : string;
    d_raw : T -> arr T -> arr T -> res (arr T)
  }.

  (** Mutable attributes [trajectory]/[trajectory_t] (base_models.py 517-518, 575-576). *)
  Definition traj : Type := option (list (list T) * list T).

  (** BaseODESolverDynamics.__init__ and BaseDynamics.__init__ (502-520, 414-432):
      the only check is that jax is importable when requested. The
      [isinstance(trajectory_samples, int)] assertion is discharged by typing. *)
  Definition mk_dyn (w : world) (d : dyn) : res dyn :=
    if d_use_jax d && negb (w_jax w) then Err ImportError else Ok d.

  (** Default limits -np.inf / np.inf (base_models.py 416-417, 505-506). *)
  Definition no_min : arr T := A0 nninf.
  Definition no_max : arr T := A0 npinf.

  (** BaseODESolverDynamics._clip_state_dot_direct (550-551). *)
  Definition clip_state_dot_direct (d : dyn) (sd : arr T) : res (arr T) :=
    np_clip sd (d_sdmin d) (d_sdmax d).

  (** BaseODESolverDynamics._clip_state_dot_by_state_limits (553-563). *)
  Definition clip_state_dot_by_state_limits (d : dyn) (s sd : arr T) : res (arr T) :=
    lower <- bmap2 nleb s (d_min d) ;;
    upper <- bmap2 (fun x m => nleb m x) s (d_max d) ;;
    lower_clipped <- np_clip sd (A0 n0) (A0 npinf) ;;
    upper_clipped <- np_clip sd (A0 nninf) (A0 n0) ;;
    sd1 <- np_where lower lower_clipped sd ;;
    np_where upper upper_clipped sd1.

  (** BaseODESolverDynamics.compute_state_dot (522-544). *)
  Definition compute_state_dot (d : dyn) (t : T) (s u : arr T) : res (arr T) :=
    sd <- d_raw d t s u ;;
    sd <- clip_state_dot_direct d sd ;;
    clip_state_dot_by_state_limits d s sd.

  (** BaseODESolverDynamics.compute_state_dot_jax (600-603): no limits. *)
  Definition compute_state_dot_jax (d : dyn) (s : arr T) (t : T) (u : arr T) : res (arr T) :=
    d_raw d t s u.

  (** [np.linspace(0, h, k+1)[1:]] (571): k points i*(h/k), i=1..k, the last one set
      to h exactly (numpy assigns the end point). Simplification: numpy's 0 step
      special case is not modelled. *)
  Definition t_eval_points (h : T) (k : nat) : list T :=
    map (fun i => if Nat.eqb i k then h
                  else nadd (nmul (nZ (Z.of_nat i)) (ndiv h (nZ (Z.of_nat k)))) n0)
        (seq 1 k).

  (** [jnp.linspace(0., h, 11)] (587). *)
  Definition jax_times (h : T) : list T := n0 :: t_eval_points h 10.

  (** [M[-1]] of a list of rows, IndexError when there is none (578, 589). *)
  Definition last_row (l : list (list T)) : res (arr T) :=
    match rev l with [] => Err IndexError | r :: _ => Ok (A1 r) end.

  (** BaseODESolverDynamics._step (565-598). Returns the new trajectory attributes
      together with the result, because the attributes are assigned (575-576) before
      the remaining statements can raise. When no requested sample time was reached,
      scipy 1.13 leaves [sol.y] an empty Python list and [sol.y.T] (575) raises
      AttributeError before any attribute is assigned. *)
  Definition dyn__step (w : world) (d : dyn) (tr : traj) (h : T) (s u : arr T)
    : traj * res (arr T * arr T) :=
    if String.eqb (d_method d) "RK45" then
      let t_eval := if (0 <? d_samples d)%Z
                    then Some (t_eval_points h (Z.to_nat (d_samples d))) else None in
      match w_solve_ivp w (fun t x => compute_state_dot d t x u) h s t_eval with
      | Err e => (tr, Err e)
      | Ok sol =>
          match sol_y sol with
          | [] => (tr, Err AttributeError)
          | _ =>
              (Some (sol_y sol, sol_t sol),
               next <- last_row (sol_y sol) ;;
               sd <- compute_state_dot d h next u ;;
               Ok (next, sd))
          end
      end
    else if String.eqb (d_method d) "RK45_JAX" then
      (tr,
       if negb (d_use_jax d) then Err ValueError
       else
         _ <- py_assert (d_samples d <=? 0)%Z ;;
         sol <- w_odeint w (fun x t => compute_state_dot_jax d x t u) s (jax_times h) ;;
         next <- last_row sol ;;
         sd <- compute_state_dot d h next u ;;
         Ok (next, sd))
    else if String.eqb (d_method d) "Euler" then
      (tr,
       _ <- py_assert (d_samples d <=? 0)%Z ;;
       sd <- compute_state_dot d n0 s u ;;
       next <- bmap2 nadd s (amap (nmul h) sd) ;;
       Ok (next, sd))
    else (tr, Err ValueError).

  (** BaseDynamics._wrap_angles (457-467), one element. *)
  Definition wrap1 (c s : T) : T :=
    nadd (nsub (nmod (nadd s npi) (nmul (nZ 2) npi)) npi) c.

  (** BaseDynamics._wrap_angles (457-467). *)
  Definition wrap_angles (d : dyn) (s : arr T) : res (arr T) :=
    match d_wrap d with
    | None => Ok s
    | Some c =>
        let needs := amap (fun x => negb (nisnan x)) c in
        wrapped <- bmap2 (fun x cc => wrap1 cc x) s c ;;
        np_where needs wrapped s
    end.

  (** BaseDynamics.step (434-455). *)
  Definition dyn_step (w : world) (d : dyn) (tr : traj) (h : T) (s u : arr T)
    : traj * res (arr T * arr T) :=
    let '(tr', r) := dyn__step w d tr h s u in
    (tr',
     '(next, sd) <- r ;;
     next <- np_clip next (d_min d) (d_max d) ;;
     next <- wrap_angles d next ;;
     Ok (next, sd)).

  (** Actions accepted by BaseEntity.step (147-189). Dict and list elements are
      numbers; [AOther] stands for every other Python object. *)
  Inductive action : Type :=
  | ANone
  | ADict (items : list (string * T))
  | AList (l : list T)
  | AArr (a : arr T)
  | AJax (a : arr T)
  | AOther.

  (** BaseEntity attributes (124-137). *)
  Record entity : Type := {
    e_dyn : dyn;
    e_default : arr T;
    e_cmin : arr T;
    e_cmax : arr T;
    e_cmap : option (list (string * nat));
    e_state : arr T;
    e_sdot : arr T;
    e_traj : traj
  }.

  (** BaseEntity.__init__ (124-137): no limits are applied to the initial state. *)
  Definition mk_entity (d : dyn) (cdef cmin cmax : arr T)
             (cmap : option (list (string * nat))) (s0 : arr T) : entity :=
    {| e_dyn := d; e_default := cdef; e_cmin := cmin; e_cmax := cmax; e_cmap := cmap;
       e_state := s0; e_sdot := zeros_like s0; e_traj := None |}.

  (** [control[i] = v] on a 1-d array (181). *)
  Fixpoint list_set (l : list T) (i : nat) (v : T) : res (list T) :=
    match l, i with
    | [], _ => Err IndexError
    | _ :: l', O => Ok (v :: l')
    | a :: l', S i' => l'' <- list_set l' i' v ;; Ok (a :: l'')
    end.
  Definition arr_set (a : arr T) (i : nat) (v : T) : res (arr T) :=
    match a with
    | A0 _ => Err IndexError
    | A1 l => l' <- list_set l i v ;; Ok (A1 l')
    end.

  (** The loop over [action.items()] (174-181). *)
  Fixpoint apply_items (cmap : list (string * nat)) (items : list (string * T)) (control : arr T)
    : res (arr T) :=
    match items with
    | [] => Ok control
    | (name, v) :: rest =>
        match dict_get name cmap with
        | None => Err KeyError
        | Some i => control' <- arr_set control i v ;; apply_items cmap rest control'
        end
    end.

  (** Decoding of the action into a control vector (167-189). *)
  Definition decode_action (w : world) (e : entity) (a : action) : res (arr T) :=
    match a with
    | ANone => Ok (e_default e)
    | ADict items =>
        match e_cmap e with
        | None => Err AssertionError
        | Some m => apply_items m items (e_default e)
        end
    | AList l => Ok (A1 (map nf32 l))
    | AArr c => Ok c
    | AJax c => if w_jax w then Ok c else Err ValueError
    | AOther => Err ValueError
    end.

  (** Bounds check with the short-circuit of [or] (192). *)
  Definition out_of_bounds (c cmin cmax : arr T) : res bool :=
    lo <- bmap2 nltb c cmin ;;
    if any lo then Ok true
    else hi <- bmap2 (fun x m => nltb m x) c cmax ;; Ok (any hi).

  (** Outcome of BaseEntity.step: the entity afterwards, whether the warning of line
      193 was emitted, and the exception if any. *)
  Record outcome : Type := { o_entity : entity; o_warned : bool; o_res : res unit }.

  Definition with_traj (e : entity) (tr : traj) : entity :=
    {| e_dyn := e_dyn e; e_default := e_default e; e_cmin := e_cmin e; e_cmax := e_cmax e;
       e_cmap := e_cmap e; e_state := e_state e; e_sdot := e_sdot e; e_traj := tr |}.

  Definition with_step (e : entity) (tr : traj) (s sd : arr T) : entity :=
    {| e_dyn := e_dyn e; e_default := e_default e; e_cmin := e_cmin e; e_cmax := e_cmax e;
       e_cmap := e_cmap e; e_state := s; e_sdot := sd; e_traj := tr |}.

  (** BaseEntity.step (147-197). [state]'s getter and setter copy (199-213); copying is
      the identity here, the heap model [Heap.v] treats identity of arrays. When the
      clip raises after the warning was emitted the flag is still true. *)
  Definition entity_step (w : world) (e : entity) (h : T) (a : action) : outcome :=
    match decode_action w e a with
    | Err x => {| o_entity := e; o_warned := false; o_res := Err x |}
    | Ok c =>
        match out_of_bounds c (e_cmin e) (e_cmax e) with
        | Err x => {| o_entity := e; o_warned := false; o_res := Err x |}
        | Ok warn =>
            match np_clip c (e_cmin e) (e_cmax e) with
            | Err x => {| o_entity := e; o_warned := warn; o_res := Err x |}
            | Ok c' =>
                match dyn_step w (e_dyn e) (e_traj e) h (e_state e) c' with
                | (tr, Err x) => {| o_entity := with_traj e tr; o_warned := warn; o_res := Err x |}
                | (tr, Ok (s', sd)) =>
                    {| o_entity := with_step e tr s' sd; o_warned := warn; o_res := Ok tt |}
                end
            end
        end
    end.

  (** [entity.state = value] (211-213). *)
  Definition set_state (e : entity) (v : arr T) : entity :=
    with_step e (e_traj e) v (e_sdot e).

  (** A run of steps; stops at the first exception. *)
  Fixpoint run (w : world) (e : entity) (acts : list (T * action)) : res entity :=
    match acts with
    | [] => Ok e
    | (h, a) :: rest =>
        let o := entity_step w e h a in
        _ <- o_res o ;; run w (o_entity o) rest
    end.

  (** BaseControlAffineODESolverDynamics._compute_state_dot (624-626). *)
  Definition affine_raw (f : arr T -> res (arr T)) (g : arr T -> res (list (list T)))
             (_ : T) (s u : arr T) : res (arr T) :=
    fx <- f s ;; gx <- g s ;; gu <- matvec gx u ;; bmap2 nadd fx gu.

  (** BaseLinearODESolverDynamics (681-698): the shape assertions. *)
  Definition is_rect (M : list (list T)) (c : nat) : bool :=
    forallb (fun r => Nat.eqb (length r) c) M.
  Definition linear_raw (A B : list (list T)) : T -> arr T -> arr T -> res (arr T) :=
    affine_raw (fun s => matvec A s) (fun _ => Ok B).
End Base.

Arguments world T : clear implicits.
Arguments dyn T : clear implicits.
Arguments entity T : clear implicits.
Arguments action T : clear implicits.
Arguments outcome T : clear implicits.
Arguments ivp_sol T : clear implicits.
Arguments traj T : clear implicits.
