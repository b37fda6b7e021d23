(** Heap model of BaseEntity (safe_autonomy_dynamics/base_models.py 103-213): arrays are
    cells of a heap, variables and attributes hold locations, [.copy()] and every numpy
    operation allocate. Used for the aliasing property only; the numeric content of a
    step is shared with [BaseModel.v]. *)
From Coq Require Import String List Bool Arith ZArith.
From Verif Require Import PyBase Num Arr BaseModel Cwh.
Import ListNotations.

Section Heap.
  Context {T : Type} {N : Num T}.

  (** A location is an index; allocation appends a cell. *)
  Definition loc := nat.
  Definition heap := list (arr T).

  Definition halloc (H : heap) (v : arr T) : heap * loc := (H ++ [v], length H).
  Definition hread (H : heap) (p : loc) : arr T := nth p H (A1 []).
  Fixpoint hwrite (H : heap) (p : loc) (v : arr T) : heap :=
    match H, p with
    | [], _ => []
    | _ :: H', O => v :: H'
    | c :: H', S p' => c :: hwrite H' p' v
    end.

  (** Attributes of an entity object (124-137); [control_default], [_state] and
      [state_dot] are references. The limit arrays are never written by the code and are
      kept as values (simplification). *)
  Record hent : Type := {
    he_dyn : dyn T; he_cmin : arr T; he_cmax : arr T; he_cmap : option (list (string * nat));
    he_default : loc; he_state : loc; he_sdot : loc; he_traj : traj T }.

  (** Actions; a list or array action is a reference to the caller's object. *)
  Inductive haction : Type :=
  | HNone | HDict (items : list (string * T)) | HList (p : loc) | HArr (p : loc) | HOther.

  (** BaseEntity.__init__ (124-137). *)
  Definition hmk (H : heap) (d : dyn T) (cdef cmin cmax : arr T)
             (cmap : option (list (string * nat))) (s0 : arr T) : heap * hent :=
    let '(H, pd) := halloc H cdef in
    let '(H, ps) := halloc H s0 in
    let '(H, pz) := halloc H (zeros_like s0) in
    (H, {| he_dyn := d; he_cmin := cmin; he_cmax := cmax; he_cmap := cmap; he_default := pd;
           he_state := ps; he_sdot := pz; he_traj := None |}).

  (** The loop over [action.items()] (174-181): writes into the array at [p]. *)
  Fixpoint happly_items (H : heap) (cmap : list (string * nat)) (items : list (string * T)) (p : loc)
    : heap * res unit :=
    match items with
    | [] => (H, Ok tt)
    | (name, v) :: rest =>
        match dict_get name cmap with
        | None => (H, Err KeyError)
        | Some i =>
            match arr_set (hread H p) i v with
            | Err x => (H, Err x)
            | Ok c => happly_items (hwrite H p c) cmap rest p
            end
        end
    end.

  (** Building the control array (167-189). *)
  Definition hdecode (H : heap) (E : hent) (a : haction) : heap * res loc :=
    match a with
    | HNone => let '(H, p) := halloc H (hread H (he_default E)) in (H, Ok p)
    | HDict items =>
        match he_cmap E with
        | None => (H, Err AssertionError)
        | Some m =>
            let '(H, p) := halloc H (hread H (he_default E)) in
            let '(H, r) := happly_items H m items p in
            (H, match r with Ok _ => Ok p | Err x => Err x end)
        end
    | HList q => let '(H, p) := halloc H (amap nf32 (hread H q)) in (H, Ok p)
    | HArr q => let '(H, p) := halloc H (hread H q) in (H, Ok p)
    | HOther => (H, Err ValueError)
    end.

  Definition hwith (E : hent) (ps pd : loc) (tr : traj T) : hent :=
    {| he_dyn := he_dyn E; he_cmin := he_cmin E; he_cmax := he_cmax E; he_cmap := he_cmap E;
       he_default := he_default E; he_state := ps; he_sdot := pd; he_traj := tr |}.

  (** BaseEntity.step (147-197). [dynamics.step] reads its arguments and returns freshly
      allocated arrays: [np.clip] and [np.where] allocate (453, 465, 561). *)
  Definition hstep (w : world T) (H : heap) (E : hent) (h : T) (a : haction)
    : heap * hent * bool * res unit :=
    let '(H, r) := hdecode H E a in
    match r with
    | Err x => (H, E, false, Err x)
    | Ok p =>
        match out_of_bounds (hread H p) (he_cmin E) (he_cmax E) with
        | Err x => (H, E, false, Err x)
        | Ok warn =>
            match np_clip (hread H p) (he_cmin E) (he_cmax E) with
            | Err x => (H, E, warn, Err x)
            | Ok c' =>
                let '(H, pc) := halloc H c' in
                let '(H, ps) := halloc H (hread H (he_state E)) in
                match dyn_step w (he_dyn E) (he_traj E) h (hread H ps) (hread H pc) with
                | (tr, Err x) => (H, hwith E (he_state E) (he_sdot E) tr, warn, Err x)
                | (tr, Ok (s', sd)) =>
                    let '(H, pn) := halloc H s' in
                    let '(H, pd) := halloc H sd in
                    let '(H, pn') := halloc H (hread H pn) in
                    (H, hwith E pn' pd tr, warn, Ok tt)
                end
            end
        end
    end.

  (** [entity.state] (199-209), [entity.state = value] (211-213), and the slices
      [self._state[i:j].copy()] behind position/velocity. *)
  Definition hget (H : heap) (E : hent) : heap * loc := halloc H (hread H (he_state E)).
  Definition hset (H : heap) (E : hent) (q : loc) : heap * hent :=
    let '(H, p) := halloc H (hread H q) in (H, hwith E p (he_sdot E) (he_traj E)).
  Definition hslice (H : heap) (E : hent) (i j : nat) : heap * res loc :=
    match aslice (hread H (he_state E)) i j with
    | Err x => (H, Err x)
    | Ok v => let '(H, p) := halloc H v in (H, Ok p)
    end.
  (** Element setters of the Dubins aircraft, [self._state[i] = value]
      (dubins.py 337-367, 584-634), on a float64 state array. *)
  Definition hset_elem (H : heap) (E : hent) (i : nat) (v : T) : heap * res unit :=
    match arr_set (hread H (he_state E)) i v with
    | Err x => (H, Err x)
    | Ok s => (hwrite H (he_state E) s, Ok tt)
    end.
  (** [entity.state_dot] is a plain attribute (135, 197): reading it yields the
      reference. *)
  Definition hget_dot (E : hent) : loc := he_sdot E.
End Heap.
Arguments heap T : clear implicits.
Arguments hent T : clear implicits.
Arguments haction T : clear implicits.
