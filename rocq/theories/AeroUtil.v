(** The non-numeric part of safe_autonomy_dynamics/external/aerobench/util.py: the fixed step
    Euler integrator, freezable objects, result extraction and the safety verifier.
    [printmat] (135-195) only prints and is not modelled. *)
From Coq Require Import String List ZArith Bool.
From Verif Require Import PyBase Num Aero.
Import ListNotations.
Local Open Scope num_scope.

Section Euler.
  Context {T : Type} {N : Num T}.

  (** util.py 72-88: the attributes of an [Euler] object. The derivative function may
      raise; it receives the current y and is assumed not to modify it. *)
  Record euler : Type := mk_euler {
    e_der : T -> list T -> res (list T);
    e_tstep : T;
    e_t : T;
    e_y : list T;
    e_yprev : option (list T);
    e_tprev : option T;
    e_tend : T;
    e_running : bool;          (* status == 'running' *)
    e_tol : T
  }.

  (** util.py 72-88 *)
  Definition euler_init (der : T -> list T -> res (list T)) (tstart : T) (ystart : list T)
      (tend step time_tol : T) : res euler :=
    _ <- py_assert (nltb n0 step) ;;
    _ <- py_assert (nltb tstart tend) ;;
    Ok (mk_euler der step tstart ystart None None tend true time_tol).

  (** [y += dt * yd] on one-dimensional arrays: equal lengths, or a one-element yd. *)
  Definition add_scaled (y : list T) (dt : T) (yd : list T) : res (list T) :=
    let d := map (fun v => dt * v) yd in
    if Nat.eqb (length y) (length d) then
      Ok (map (fun ab => fst ab + snd ab) (combine y d))
    else match d with
         | [v] => Ok (map (fun a => a + v) y)
         | _ => Err ValueError
         end.

  (** util.py 90-107; the second component is the object after the call, also when the
      call raises. *)
  Definition euler_step (e : euler) : res unit * euler :=
    if e_running e then
      let e1 := mk_euler (e_der e) (e_tstep e) (e_t e) (e_y e) (Some (e_y e)) (Some (e_t e))
                         (e_tend e) true (e_tol e) in
      match e_der e (e_t e) (e_y e) with
      | Err x => (Err x, e1)
      | Ok yd =>
          let t := e_t e + e_tstep e in
          let t := if nleb (e_tend e) (t + e_tol e) then e_tend e else t in
          let dt := t - e_t e in
          match add_scaled (e_y e) dt yd with
          | Err x => (Err x, mk_euler (e_der e) (e_tstep e) t (e_y e) (Some (e_y e))
                                      (Some (e_t e)) (e_tend e) true (e_tol e))
          | Ok y =>
              (Ok tt, mk_euler (e_der e) (e_tstep e) t y (Some (e_y e)) (Some (e_t e))
                               (e_tend e) (negb (neqb t (e_tend e))) (e_tol e))
          end
      end
    else (Ok tt, e).

  (** [n] calls of [step] *)
  Fixpoint euler_steps (n : nat) (e : euler) : res unit * euler :=
    match n with
    | O => (Ok tt, e)
    | S m => match euler_step e with
             | (Ok _, e') => euler_steps m e'
             | r => r
             end
    end.

  (** util.py 109-126: the slope computed when [dense_output] is called ... *)
  Definition dense_output (e : euler) : res (list T) :=
    match e_tprev e, e_yprev e with
    | Some tprev, Some yprev =>
        let dt := e_t e - tprev in
        Ok (map (fun ab => (fst ab - snd ab) / dt) (combine (e_y e) yprev))
    | _, _ => Err AssertionError
    end.

  (** ... and the returned closure, which reads tprev and yprev of the object as it is
      when the closure is called (util.py 119-124). *)
  Definition dense_eval (dydt : list T) (now : euler) (t : T) : res (list T) :=
    match e_tprev now, e_yprev now with
    | Some tprev, Some yprev =>
        Ok (map (fun ab => fst ab + snd ab * (t - tprev)) (combine yprev dydt))
    | _, _ => Err TypeError
    end.
End Euler.

Section Freezable.
  Context {V : Type} (truthy : V -> bool) (vTrue : V).
  (** Names found on the class, which [hasattr] also sees. *)
  Context (cls : list string).

  (** util.py 50-63: an instance dictionary. The class attribute [_frozen = False] is
      what [self._frozen] means while the instance has none. *)
  Definition obj : Type := list (string * V).

  Definition is_frozen (o : obj) : bool :=
    match dict_get "_frozen" o with Some v => truthy v | None => false end.

  Definition hasattr (o : obj) (k : string) : bool :=
    match dict_get k o with
    | Some _ => true
    | None => existsb (String.eqb k) ("_frozen"%string :: cls)
    end.

  Fixpoint dict_set (k : string) (v : V) (o : obj) : obj :=
    match o with
    | [] => [(k, v)]
    | (k', v') :: o' => if String.eqb k k' then (k, v) :: o' else (k', v') :: dict_set k v o'
    end.

  Fixpoint dict_del (k : string) (o : obj) : obj :=
    match o with
    | [] => []
    | (k', v') :: o' => if String.eqb k k' then o' else (k', v') :: dict_del k o'
    end.

  (** util.py 59-63 [__setattr__] *)
  Definition set_attr (o : obj) (k : string) (v : V) : res obj :=
    if is_frozen o && negb (hasattr o k) then Err TypeError else Ok (dict_set k v o).

  (** util.py 55-57 *)
  Definition freeze_attrs (o : obj) : res obj := set_attr o "_frozen" vTrue.

  (** [del o.k], inherited from object *)
  Definition del_attr (o : obj) (k : string) : res obj :=
    match dict_get k o with Some _ => Ok (dict_del k o) | None => Err AttributeError end.

  Inductive fop : Type := FSet (k : string) (v : V) | FDel (k : string) | FFreeze.

  Definition fop_run (o : obj) (p : fop) : res obj :=
    match p with
    | FSet k v => set_attr o k v
    | FDel k => del_attr o k
    | FFreeze => freeze_attrs o
    end.

  (** A caller that carries on after an exception: a failed operation changes nothing. *)
  Definition fop_try (o : obj) (p : fop) : obj :=
    match fop_run o p with Ok o' => o' | Err _ => o end.
End Freezable.

Section Results.
  Context {T : Type} {N : Num T}.
  Local Open Scope Z_scope.

  (** util.py 129-132 and low_level_controller.py 113-116 *)
  Definition state_names : list string :=
    ["vt"; "alpha"; "beta"; "phi"; "theta"; "psi"; "P"; "Q"; "R"; "pos_n"; "pos_e"; "alt";
     "pow"]%string.
  Definition num_integrators : nat := 3.

  (** Python slice [l\[a:b\]] for integers a and b. *)
  Definition slice {A} (l : list A) (a b : Z) : list A :=
    let n := Z.of_nat (length l) in
    let norm i := if i <? 0 then Z.max 0 (i + n) else Z.min i n in
    firstn (Z.to_nat (norm b - norm a)) (skipn (Z.to_nat (norm a)) l).

  (** A simulation result: the dictionary entries that are read. [r_ext] is the tuple of
      lists xd_list, ps_list, Nz_list, Ny_r_list, u_list, one tuple of per-aircraft values
      for every time. *)
  Record sim_result {S X : Type} : Type := mk_result {
    r_status : S; r_times : S; r_modes : S;
    r_states : list (list T);
    r_ext : option (list (list (list X)))
  }.
  Arguments sim_result : clear implicits.

  (** The extended lists hold tuples before the extraction and single values after it. *)
  Inductive extracted {S X : Type} : Type :=
  | Whole (r : sim_result S X)
  | Single (status times modes : S) (states : list (list T)) (ext : option (list (list X))).
  Arguments extracted : clear implicits.

  (** util.py 224-250 *)
  Definition extract_single_result {S X} (r : sim_result S X) (index : Z)
    : res (extracted S X) :=
    let num_vars := Z.of_nat (length state_names + num_integrators) in
    row0 <- py_index (r_states r) 0 ;;
    let num_aircraft := Z.of_nat (length row0) / num_vars in
    if num_aircraft =? 1 then
      _ <- py_assert (index =? 0) ;; Ok (Whole r)
    else
      let states := map (fun row => slice row (num_vars * index) (num_vars * (index + 1)))
                        (r_states r) in
      match r_ext r with
      | None => Ok (Single (r_status r) (r_times r) (r_modes r) states None)
      | Some lists =>
          ext <- mapM (mapM (fun tup => py_index tup index)) lists ;;
          Ok (Single (r_status r) (r_times r) (r_modes r) states (Some ext))
      end.

  (** util.py 253-265: a limit is absent when its keyword is missing or None. *)
  Record limits : Type := mk_limits {
    l_altitude : option (T * T);
    l_Nz : option (T * T);
    l_v : option (T * T);
    l_alpha : option (T * T);
    l_ps : option T;
    l_beta : option T
  }.

  (** [assert lo <= x <= hi] when the limit is present *)
  Definition check_range (l : option (T * T)) (x : T) : res unit :=
    match l with
    | None => Ok tt
    | Some (lo, hi) => py_assert (nleb lo x && nleb x hi)
    end.

  Definition check_max (l : option T) (x : T) : res unit :=
    match l with None => Ok tt | Some hi => py_assert (nleb x hi) end.

  (** util.py 294-320: the body of the loop for tick [i]. *)
  Definition verify_tick (lim : limits) (states : list (list T)) (nzs pss : list T) (i : Z)
    : res unit :=
    row <- py_index states i ;;
    if negb (Nat.eqb (length row) 16) then Err ValueError
    else
      let alpha := nth 1 row n0 in
      let beta := nth 2 row n0 in
      let alt := nth 11 row n0 in
      nz <- py_index nzs i ;;
      ps <- py_index pss i ;;
      _ <- check_range (l_altitude lim) alt ;;
      _ <- check_range (l_Nz lim) nz ;;
      _ <- check_range (l_alpha lim) alpha ;;
      _ <- check_max (l_ps lim) ps ;;
      check_max (l_beta lim) beta.

  (** util.py 276-320. [with_llc] tells whether a controller was given; [size] is the
      number of entries of the states array. *)
  Definition verify (lim : limits) (with_llc : bool) (states : list (list T))
      (nzs pss : list T) : res unit :=
    let num := if with_llc then (length state_names + num_integrators)%nat
               else length state_names in
    let size := length (concat states) in
    _ <- py_assert (Nat.eqb (size mod num) 0) ;;
    _ <- mapM (fun i => verify_tick lim states nzs pss (Z.of_nat i)) (seq 0 (size / num)) ;;
    Ok tt.
End Results.
Arguments sim_result : clear implicits.
Arguments extracted : clear implicits.
Arguments limits : clear implicits.
Arguments euler : clear implicits.
