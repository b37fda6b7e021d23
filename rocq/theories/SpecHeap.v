(** Programs that use an entity and arrays of their own, executed against the heap model
    and against immutable values. Nothing here is used by the model. *)
From Coq Require Import String List Bool Arith ZArith.
From Verif Require Import PyBase Num Arr BaseModel Cwh Heap.
Import ListNotations.

Section SH.
  Context {T : Type} {N : Num T}.

  (** What a caller can do. Arrays are named by handles: handle [k] is the [k]-th array
      the caller created or received. *)
  Inductive cact : Type :=
  | CNone | CDict (items : list (string * T)) | CList (k : nat) | CArr (k : nat) | COther.
  Inductive cop : Type :=
  | CNew (v : arr T)                    (* create an array *)
  | CMut (k i : nat) (x : T)            (* array k: a[i] = x, in place *)
  | CGet                                (* new handle := entity.state *)
  | CSlice (i j : nat)                  (* new handle := entity.position and the like *)
  | CSet (k : nat)                      (* entity.state = array k *)
  | CElem (i : nat) (x : T)             (* entity.v = x and the like *)
  | CStep (h : T) (a : cact).           (* entity.step(h, a) *)

  (** What the caller sees: exceptions, warnings. *)
  Inductive cout : Type := ODone | ORaise (x : exn) | OStepped (warned : bool) (r : res unit).

  (** Value semantics: the entity is an immutable value, each handle has its own array. *)
  Definition vact (store : list (arr T)) (a : cact) : option (action T) :=
    match a with
    | CNone => Some ANone
    | CDict items => Some (ADict items)
    | CList k => match nth_error store k with
                 | Some (A1 l) => Some (AList l)
                 | _ => None
                 end
    | CArr k => option_map AArr (nth_error store k)
    | COther => Some AOther
    end.
  Fixpoint upd {A} (l : list A) (k : nat) (v : A) : list A :=
    match l, k with
    | [], _ => []
    | _ :: l', O => v :: l'
    | a :: l', S k' => a :: upd l' k' v
    end.
  Definition vexec (w : world T) (e : entity T) (store : list (arr T)) (o : cop)
    : entity T * list (arr T) * cout :=
    match o with
    | CNew v => (e, store ++ [v], ODone)
    | CMut k i x =>
        match nth_error store k with
        | None => (e, store, ODone)
        | Some a => match arr_set a i x with
                    | Err x => (e, store, ORaise x)
                    | Ok a' => (e, upd store k a', ODone)
                    end
        end
    | CGet => (e, store ++ [e_state e], ODone)
    | CSlice i j => match aslice (e_state e) i j with
                    | Err x => (e, store, ORaise x)
                    | Ok v => (e, store ++ [v], ODone)
                    end
    | CSet k => match nth_error store k with
                | None => (e, store, ODone)
                | Some a => (set_state e a, store, ODone)
                end
    | CElem i x => match arr_set (e_state e) i x with
                   | Err x => (e, store, ORaise x)
                   | Ok s => (set_state e s, store, ODone)
                   end
    | CStep h a =>
        match vact store a with
        | None => (e, store, ODone)
        | Some a => let r := entity_step w e h a in
                    (o_entity r, store, OStepped (o_warned r) (o_res r))
        end
    end.

  (** Heap semantics: [env] maps handles to locations. *)
  Definition hact (H : heap T) (env : list loc) (a : cact) : option (haction T) :=
    match a with
    | CNone => Some HNone
    | CDict items => Some (HDict items)
    | CList k => match nth_error env k with
                 | Some p => match hread H p with A1 _ => Some (HList p) | A0 _ => None end
                 | None => None
                 end
    | CArr k => option_map HArr (nth_error env k)
    | COther => Some HOther
    end.
  Definition hexec (w : world T) (H : heap T) (E : hent T) (env : list loc) (o : cop)
    : heap T * hent T * list loc * cout :=
    match o with
    | CNew v => let '(H, p) := halloc H v in (H, E, env ++ [p], ODone)
    | CMut k i x =>
        match nth_error env k with
        | None => (H, E, env, ODone)
        | Some p => match arr_set (hread H p) i x with
                    | Err x => (H, E, env, ORaise x)
                    | Ok a' => (hwrite H p a', E, env, ODone)
                    end
        end
    | CGet => let '(H, p) := hget H E in (H, E, env ++ [p], ODone)
    | CSlice i j => let '(H, r) := hslice H E i j in
                    match r with
                    | Err x => (H, E, env, ORaise x)
                    | Ok p => (H, E, env ++ [p], ODone)
                    end
    | CSet k => match nth_error env k with
                | None => (H, E, env, ODone)
                | Some p => let '(H, E) := hset H E p in (H, E, env, ODone)
                end
    | CElem i x => let '(H, r) := hset_elem H E i x in
                   (H, E, env, match r with Ok _ => ODone | Err x => ORaise x end)
    | CStep h a =>
        match hact H env a with
        | None => (H, E, env, ODone)
        | Some a => let '(H, E, wn, r) := hstep w H E h a in (H, E, env, OStepped wn r)
        end
    end.

  (** Whole programs, collecting the outputs. *)
  Fixpoint vexec_all (w : world T) (e : entity T) (store : list (arr T)) (l : list cop)
    : entity T * list (arr T) * list cout :=
    match l with
    | [] => (e, store, [])
    | o :: l' => let '(e, store, x) := vexec w e store o in
                 let '(e, store, xs) := vexec_all w e store l' in (e, store, x :: xs)
    end.
  Fixpoint hexec_all (w : world T) (H : heap T) (E : hent T) (env : list loc) (l : list cop)
    : heap T * hent T * list loc * list cout :=
    match l with
    | [] => (H, E, env, [])
    | o :: l' => let '(H, E, env, x) := hexec w H E env o in
                 let '(H, E, env, xs) := hexec_all w H E env l' in (H, E, env, x :: xs)
    end.

  (** The entity as seen through its references. *)
  Definition view (H : heap T) (E : hent T) : entity T :=
    {| e_dyn := he_dyn E; e_default := hread H (he_default E); e_cmin := he_cmin E;
       e_cmax := he_cmax E; e_cmap := he_cmap E; e_state := hread H (he_state E);
       e_sdot := hread H (he_sdot E); e_traj := he_traj E |}.
End SH.
Arguments cop T : clear implicits.
