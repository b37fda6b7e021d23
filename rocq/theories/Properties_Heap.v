(** Properties C07 and C70: aliasing of arrays between the caller and the entity. *)
From Coq Require Import String List Bool Arith ZArith.
From Flocq Require Import IEEE754.BinarySingleNaN.
From Verif Require Import PyBase Num Arr BaseModel Cwh Float64 Heap SpecHeap HeapLemmas XTac Witness.
Import ListNotations.

(** * C07 Value semantics of the state API *)

(** Every program made of steps, reads of state and its slices, assignments to the state,
    element assignments, and in-place mutation of the caller's own arrays behaves as if
    the entity were an immutable value and every array had a single owner: same entity
    contents, same contents of the caller's arrays, same exceptions and warnings. *)
Theorem C07_value_semantics :
  forall T (N : Num T) (w : world T) H0 d cdef cmin cmax cmap s0 (prog : list (cop T)),
    let '(H, E) := hmk H0 d cdef cmin cmax cmap s0 in
    let '(H', E', env, outs) := hexec_all w H E [] prog in
    let '(e', store, vouts) := vexec_all w (mk_entity d cdef cmin cmax cmap s0) [] prog in
    view H' E' = e' /\ map (hread H') env = store /\ outs = vouts.
Proof. exact (fun T N => @value_semantics T N). Qed.
Print Assumptions C07_value_semantics.

(** A program that exercises every hazard: it mutates the array it used as an action, the
    array it read the state into, and the array it assigned to the state; the entity ends
    up where the assignment put it, and the action array still holds what the caller wrote. *)
Example C07_example :
  let e := cwhF "Euler" (fl 100 1) (fl 1 1) in
  let prog := [CNew (A1 [fl 1 1; fl 0 1; fl 0 1]); CStep (fl 1 1) (CArr 0); CGet; CMut 1 0 (fl 7 1);
               CNew (A1 [fl 1 1; fl 2 1; fl 3 1; fl 4 1; fl 5 1; fl 6 1]); CSet 2; CMut 2 0 (fl 9 1);
               CSlice 0 3] in
  let '(e', store, outs) := vexec_all (N := F64 lm0) (euler_world (N := F64 lm0)) e [] prog in
  amap B2SF (e_state e') = A1 (map B2SF [fl 1 1; fl 2 1; fl 3 1; fl 4 1; fl 5 1; fl 6 1]) /\
  nth_error (map (amap B2SF) store) 0 = Some (A1 (map B2SF [fl 1 1; fl 0 1; fl 0 1])) /\
  nth_error (map (amap B2SF) store) 3 = Some (A1 (map B2SF [fl 1 1; fl 2 1; fl 3 1])) /\
  nth_error outs 1 = Some (OStepped false (Ok tt)).
Proof. vm_compute. repeat split; reflexivity. Qed.

(** * C70 The reported derivative is a value too *)

(** False: [entity.state_dot] hands out the array itself. Writing into the array obtained
    before changes what the entity reports afterwards. *)
Theorem C70_refuted :
  exists (e : entity f64) (x : f64),
    let '(H, E) := hmk (N := F64 lm0) [] (e_dyn e) (e_default e) (e_cmin e) (e_cmax e) (e_cmap e) (e_state e) in
    let '(H', E', _, r) := hstep (N := F64 lm0) (euler_world (N := F64 lm0)) H E (fl 1 1) HNone in
    let p := hget_dot E' in
    r = Ok tt /\
    match arr_set (hread H' p) 0 x with
    | Ok a' => amap B2SF (e_sdot (view (hwrite H' p a') E')) <> amap B2SF (e_sdot (view H' E'))
    | Err _ => False
    end.
Proof.
  exists (cwhF "Euler" (fl 100 1) (fl 1 1)), (fl 7 1).
  vm_compute. split; [reflexivity|discriminate].
Qed.
Print Assumptions C70_refuted.
