(** Properties C62-C66, C80 and C81: utilities of the F-16 package. *)
From Coq Require Import String List ZArith Reals Lra Lia Bool.
From Flocq Require Import Core.Core IEEE754.BinarySingleNaN.
From Verif Require Import PyBase Num XReal Float64 XTac Aero AeroUtil SpecUtil F16Mem EulerMem
  EulerLemmas EulerF64 EulerMemLemmas UtilLemmas UtilExamples.
Import List ListNotations.
Local Open Scope R_scope.
Local Hint Extern 0 (Num f64) => match goal with lm : libm |- _ => exact (F64 lm) end
  : typeclass_instances.
Local Hint Extern 0 (Num xr) => exact (XR Fin) : typeclass_instances.

(** * C62 Fixed step Euler integrator *)

(** Rejected exactly when the step is not positive or the interval is empty (binary64; nan too). *)
Theorem C62_rejects :
  forall (lm : libm) der (t0 : f64) y0 tend h tol,
    (nltb n0 h && nltb t0 tend = false <-> euler_init der t0 y0 tend h tol = Err AssertionError) /\
    (nltb n0 h && nltb t0 tend = true -> exists e, euler_init der t0 y0 tend h tol = Ok e /\
       e_t e = t0 /\ e_y e = y0 /\ e_tend e = tend /\ e_tstep e = h /\ e_running e = true).
Proof. intros lm. exact euler_init_rejects. Qed.
Print Assumptions C62_rejects.

(** Exact arithmetic, any derivative function that keeps the length: for some [N], the first [N]
    steps are the Euler method on a strictly increasing grid that ends at [tend]; after them nothing
    changes any more. *)
Theorem C62_method :
  forall f der t0 h tend tol y0,
    (forall t y, length y = length y0 ->
       der (Fin t) (map Fin y) = Ok (map Fin (f t y)) /\ length (f t y) = length y) ->
    0 < h -> t0 < tend -> 0 <= tol ->
    exists N e0, last_step t0 h tend tol N /\ INR N - 1 < (tend - t0) / h /\
      euler_init der (Fin t0) (map Fin y0) (Fin tend) (Fin h) (Fin tol) = Ok e0 /\
      (forall k, (k < N)%nat -> instant t0 h tend N k < instant t0 h tend N (S k) <= tend) /\
      forall k, exists e, euler_steps k e0 = (Ok tt, e) /\
        e_t e = Fin (instant t0 h tend N (Nat.min k N)) /\
        e_y e = map Fin (march f (instant t0 h tend N) y0 (Nat.min k N)) /\
        e_running e = Nat.ltb k N.
Proof. exact euler_method. Qed.
Print Assumptions C62_method.

(** A finished integrator ignores further steps (binary64). *)
Theorem C62_idle :
  forall (lm : libm) (e : euler f64) n, e_running e = false -> euler_steps n e = (Ok tt, e).
Proof. intros lm. exact euler_steps_idle. Qed.
Print Assumptions C62_idle.

(** Binary64: time stays between its previous value and the end.
    Missing: that binary64 time reaches the end, which is false. *)
Theorem C62_time_f64_partial :
  forall (lm : libm) n (e e' : euler f64),
    is_finite (e_t e) = true -> is_finite (e_tstep e) = true -> is_finite (e_tol e) = true ->
    is_finite (e_tend e) = true ->
    0 < B2R (e_tstep e) -> 0 <= B2R (e_tol e) -> B2R (e_t e) <= B2R (e_tend e) ->
    euler_steps n e = (Ok tt, e') ->
    is_finite (e_t e') = true /\ B2R (e_t e) <= B2R (e_t e') <= B2R (e_tend e).
Proof. intros lm n. exact (euler_times_f64 lm n). Qed.
Print Assumptions C62_time_f64_partial.

(** But it need not advance: half a second steps at time 2^53 never finish, whatever is integrated. *)
Theorem C62_terminates_f64_refuted :
  forall (lm : libm) (der : f64 -> list f64 -> res (list f64)) (y0 : list f64),
    (forall t y, length y = length y0 -> exists yd, der t y = Ok yd /\ length yd = length y) ->
    exists (t0 h tend : f64) e0,
      is_finite t0 = true /\ is_finite tend = true /\ B2R h = 1 / 2 /\
      euler_init der t0 y0 tend h (nlit 1 1000000000) = Ok e0 /\
      forall n, exists e, euler_steps n e0 = (Ok tt, e) /\ e_t e = t0 /\ e_running e = true.
Proof. exact euler_stuck. Qed.
Print Assumptions C62_terminates_f64_refuted.

(** A derivative function that raises leaves time, state and status as they were. *)
Theorem C62_raises :
  forall (lm : libm) (e : euler f64) x,
    e_running e = true -> e_der e (e_t e) (e_y e) = Err x ->
    exists e', euler_step e = (Err x, e') /\ e_t e' = e_t e /\ e_y e' = e_y e /\
      e_running e' = true /\ e_tprev e' = Some (e_t e) /\ e_yprev e' = Some (e_y e) /\
      e_tend e' = e_tend e /\ e_tstep e' = e_tstep e /\ e_tol e' = e_tol e /\ e_der e' = e_der e.
Proof. intros lm. exact euler_step_raises. Qed.
Print Assumptions C62_raises.

(** On a memory of arrays: no array that existed before, the start vector included, is written. *)
Theorem C62_start_kept :
  forall (lm : libm) (H : mem (T := f64)) der t0 p tend h tol n e0,
    (p < length H)%nat -> euler_init der t0 (rd H p) tend h tol = Ok e0 ->
    exists H1 e1 H2 r e2,
      eulerm_init H der t0 p tend h tol = (H1, Ok e1) /\
      eulerm_steps n H1 e1 = (H2, r, e2) /\
      euler_steps n e0 = (r, view H2 e2) /\
      forall q, (q < length H)%nat -> rd H2 q = rd H q.
Proof. intros lm. exact eulerm_run. Qed.
Print Assumptions C62_start_kept.

(** y' = 1 + t from 0 to 4 with step 3: a step of 3 and one of 1. *)
Example C62_example : exists e0 e,
  euler_init ramp (Fin 0) [Fin 0] (Fin 4) (Fin 3) (Fin 0) = Ok e0 /\
  euler_steps 2 e0 = (Ok tt, e) /\ e_t e = Fin 4 /\ e_y e = [Fin 7] /\ e_running e = false.
Proof. exact C62_ex. Qed.

(** * C63 Dense output *)

(** After each step, and one step later, the function is the line through both ends of the step.
    Missing: later evaluations of the same function, and binary64, where it is false. *)
Theorem C63_interpolates_partial :
  forall f der t0 h tend tol y0,
    (forall t y, length y = length y0 ->
       der (Fin t) (map Fin y) = Ok (map Fin (f t y)) /\ length (f t y) = length y) ->
    0 < h -> t0 < tend -> 0 <= tol ->
    exists N e0, last_step t0 h tend tol N /\
      euler_init der (Fin t0) (map Fin y0) (Fin tend) (Fin h) (Fin tol) = Ok e0 /\
      dense_output e0 = Err AssertionError /\
      forall k, (k < N)%nat -> let time := instant t0 h tend N in let val := march f time y0 in
        exists e dydt, euler_steps (S k) e0 = (Ok tt, e) /\ dense_output e = Ok dydt /\
          (forall s, dense_eval dydt e (Fin s)
                     = Ok (map Fin (on_line (time k) (val k) (time (S k)) (val (S k)) s))) /\
          on_line (time k) (val k) (time (S k)) (val (S k)) (time k) = val k /\
          on_line (time k) (val k) (time (S k)) (val (S k)) (time (S k)) = val (S k) /\
          forall s e', euler_step e = (Ok tt, e') ->
            dense_eval dydt e' (Fin s)
            = Ok (map Fin (on_line (time k) (val k) (time (S k)) (val (S k)) s)).
Proof. exact dense_method. Qed.
Print Assumptions C63_interpolates_partial.

(** Two steps later it denotes something else. *)
Theorem C63_keeps_denoting_refuted :
  exists e0 e1 e3 dydt,
    euler_init ramp (Fin 0) [Fin 0] (Fin 4) (Fin 1) (Fin 0) = Ok e0 /\
    euler_steps 1 e0 = (Ok tt, e1) /\ dense_output e1 = Ok dydt /\
    dense_eval dydt e1 (Fin 0) = Ok [Fin 0] /\
    euler_steps 2 e1 = (Ok tt, e3) /\ dense_eval dydt e3 (Fin 0) = Ok [Fin 1].
Proof. exact ramp_run. Qed.
Print Assumptions C63_keeps_denoting_refuted.

(** After a step that raised the slope is 0/0. *)
Theorem C63_after_failure_refuted :
  exists e0 e1 e2,
    euler_init flaky (Fin 0) [Fin 0] (Fin 4) (Fin 1) (Fin 0) = Ok e0 /\
    euler_step e0 = (Ok tt, e1) /\ euler_step e1 = (Err ValueError, e2) /\
    dense_output e2 = Ok [NaN].
Proof. exact flaky_run. Qed.
Print Assumptions C63_after_failure_refuted.

(** In binary64 the right end is matched up to rounding only. *)
Theorem C63_right_end_f64_refuted :
  exists e dydt y,
    first_step = (Ok tt, e) /\ dense_output (N := F64 lm0) e = Ok dydt /\
    dense_eval (N := F64 lm0) dydt e (e_t e) = Ok [y] /\
    Forall (fun v => is_finite v = true) (y :: e_y e) /\ [B2SF y] <> map B2SF (e_y e).
Proof. exact dense_end_off. Qed.
Print Assumptions C63_right_end_f64_refuted.

Example C63_example : on_line 1 [10; 5] 3 [20; 5] 2 = [10 + (20 - 10) * ((2 - 1) / (3 - 1)); 5 + (5 - 5) * ((2 - 1) / (3 - 1))].
Proof. reflexivity. Qed.

(** * C64 Freezable *)

Theorem C64_before :
  forall (V : Type) (truthy : V -> bool) (cls : list string) (o : obj) k v,
    is_frozen truthy o = false ->
    exists o', set_attr truthy cls o k v = Ok o' /\
      forall k', dict_get k' o' = if String.eqb k' k then Some v else dict_get k' o.
Proof. exact @set_thawed. Qed.
Print Assumptions C64_before.

Theorem C64_freeze :
  forall (V : Type) (truthy : V -> bool) (vTrue : V) (cls : list string),
    truthy vTrue = true -> forall (o : obj),
    exists o', freeze_attrs truthy vTrue cls o = Ok o' /\ is_frozen truthy o' = true /\
      forall k, k <> "_frozen"%string -> dict_get k o' = dict_get k o.
Proof. exact @freeze_works. Qed.
Print Assumptions C64_freeze.

Theorem C64_existing :
  forall (V : Type) (truthy : V -> bool) (cls : list string) (o : obj) k v,
    hasattr cls o k = true ->
    exists o', set_attr truthy cls o k v = Ok o' /\
      forall k', dict_get k' o' = if String.eqb k' k then Some v else dict_get k' o.
Proof. exact @set_existing. Qed.
Print Assumptions C64_existing.

Theorem C64_new_rejected :
  forall (V : Type) (truthy : V -> bool) (cls : list string) (o : obj) k v,
    is_frozen truthy o = true -> hasattr cls o k = false ->
    set_attr truthy cls o k v = Err TypeError.
Proof. exact @set_new_rejected. Qed.
Print Assumptions C64_new_rejected.

(** Over any history that leaves the flag itself alone, deletions included, no name appears.
    Missing: histories that assign or delete the flag, where it is false. *)
Theorem C64_history_partial :
  forall (V : Type) (truthy : V -> bool) (vTrue : V) (cls : list string),
    truthy vTrue = true -> forall ps (o : obj),
    is_frozen truthy o = true -> Forall leaves_flag ps ->
    let o' := fold_left (fop_try truthy vTrue cls) ps o in
    is_frozen truthy o' = true /\
    forall k, hasattr cls o' k = true -> hasattr cls o k = true.
Proof. exact @frozen_history. Qed.
Print Assumptions C64_history_partial.

(** The flag is itself an attribute: assigning or deleting it thaws the object. *)
Theorem C64_assign_flag_refuted :
  exists (o : obj (V := bool)) k,
    freeze_attrs (fun b => b) true [] [] = Ok o /\ is_frozen (fun b => b) o = true /\
    hasattr [] o k = false /\
    hasattr [] (fold_left (fop_try (fun b => b) true []) [FSet "_frozen" false; FSet k true] o) k
      = true.
Proof. exact thawing. Qed.
Print Assumptions C64_assign_flag_refuted.

Theorem C64_delete_flag_refuted :
  exists (o : obj (V := bool)) k,
    freeze_attrs (fun b => b) true [] [] = Ok o /\ hasattr [] o k = false /\
    hasattr [] (fold_left (fop_try (fun b => b) true []) [FDel "_frozen"; FSet k true] o) k = true.
Proof. exact thawing_del. Qed.
Print Assumptions C64_delete_flag_refuted.

Example C64_example :
  let o := [("t", 1%nat); ("_frozen", 1%nat)]%string in let truthy := fun n => negb (Nat.eqb n 0) in
  set_attr truthy ["step"%string] o "t" 5%nat = Ok [("t", 5%nat); ("_frozen", 1%nat)]%string /\
  set_attr truthy ["step"%string] o "tt" 5%nat = Err TypeError.
Proof. split; reflexivity. Qed.

(** * C65 Safety verifier *)

(** With a controller and well formed results, accepted exactly when [checked_tick] holds at every
    tick; otherwise AssertionError. [checked_tick] has no speed and compares the signed sideslip and
    roll rate in radians.
    Missing: that [checked_tick] is the documented safety condition, which is false. *)
Theorem C65_accepts_partial :
  forall lim rows nzs pss,
    Forall (fun r => length r = 16%nat) rows -> length nzs = length rows -> length pss = length rows ->
    let v := verify (limits_of lim) true (map (map Fin) rows) (map Fin nzs) (map Fin pss) in
    (v = Ok tt <-> every_tick (checked_tick lim) rows nzs pss) /\
    (v <> Ok tt -> v = Err AssertionError).
Proof. exact verify_checks. Qed.
Print Assumptions C65_accepts_partial.

(** Every safe run is accepted.
    Missing: that unsafe runs are rejected, which is false. *)
Theorem C65_safe_accepted_partial :
  forall lim rows nzs pss,
    Forall (fun r => length r = 16%nat) rows -> length nzs = length rows -> length pss = length rows ->
    every_tick (safe_tick lim) rows nzs pss ->
    verify (limits_of lim) true (map (map Fin) rows) (map Fin nzs) (map Fin pss) = Ok tt.
Proof. exact verify_complete. Qed.
Print Assumptions C65_safe_accepted_partial.

Theorem C65_speed_refuted :
  exists lim rows nzs pss,
    Forall (fun r => length r = 16%nat) rows /\ length nzs = length rows /\ length pss = length rows /\
    m_beta lim = None /\ m_ps lim = None /\
    verify (limits_of lim) true (map (map Fin) rows) (map Fin nzs) (map Fin pss) = Ok tt /\
    ~ every_tick (safe_tick lim) rows nzs pss.
Proof. exact speed_unchecked. Qed.
Print Assumptions C65_speed_refuted.

Theorem C65_sideslip_refuted :
  exists lim, m_beta lim = Some 15 /\ m_speed lim = None /\ m_ps lim = None /\
    forall b, (b = 1 \/ b = -1) ->
    verify (limits_of lim) true (map (map Fin) [one_row 500 b]) (map Fin [0]) (map Fin [0]) = Ok tt /\
    ~ every_tick (safe_tick lim) [one_row 500 b] [0] [0].
Proof. exact sideslip_unchecked. Qed.
Print Assumptions C65_sideslip_refuted.

(** Without a controller no run is accepted, in any arithmetic. *)
Theorem C65_without_controller_refuted :
  forall (lm : libm) (lim : limits f64) rows nzs pss w,
    rows <> [] -> (0 < w)%nat -> Forall (fun r => length r = w) rows ->
    is_ok (verify lim false rows nzs pss) = false.
Proof. intros lm. exact verify_without_llc. Qed.
Print Assumptions C65_without_controller_refuted.

Example C65_example : let lim := limits_of (Build_flight_limits (Some (0, 45000)) (Some (-5, 18)) None None None None) in
  verify lim true [map Fin (one_row 500 0)] [Fin 2] [Fin 0] = Ok tt /\
  verify lim true [map Fin (one_row 500 0)] [Fin (-6)] [Fin 0] = Err AssertionError.
Proof. exact C65_ex. Qed.

(** * C66 Extraction of one aircraft *)

Theorem C66_columns :
  forall (T S X : Type) (d : T) (dx : X) (r : sim_result T S X) n i,
    (2 <= n)%nat -> (i < n)%nat -> r_states r <> [] ->
    Forall (fun row => length row = (16 * n)%nat) (r_states r) -> tuples n (r_ext r) ->
    extract_single_result r (Z.of_nat i)
    = Ok (Single (r_status r) (r_times r) (r_modes r) (map (aircraft_columns d i) (r_states r))
            (option_map (map (map (fun t => nth i t dx))) (r_ext r))).
Proof. exact @extract_columns. Qed.
Print Assumptions C66_columns.

Theorem C66_one :
  forall (T S X : Type) (r : sim_result T S X) i, r_states r <> [] ->
    Forall (fun row => length row = 16%nat) (r_states r) ->
    extract_single_result r i = if (i =? 0)%Z then Ok (Whole r) else Err AssertionError.
Proof. exact @extract_one. Qed.
Print Assumptions C66_one.

(** The columns of all aircraft, in order, are the row. *)
Theorem C66_together :
  forall (T : Type) (d : T) n row, length row = (16 * n)%nat ->
    concat (map (fun i => aircraft_columns d i row) (seq 0 n)) = row.
Proof. exact @columns_concat. Qed.
Print Assumptions C66_together.

Example C66_example : extract_single_result formation 1
  = Ok (Single 0%nat 1%nat 2%nat [seq 16 16; seq 116 16] (Some [[8; 10]%nat])).
Proof. exact C66_ex. Qed.

(** * C80 The integrator's state as a value *)

(** The array read as [integrator.y] is the one later steps write. *)
Theorem C80_y_value_refuted :
  exists (H : mem) (e1 : eulerm xr) H2 e2,
    eulerm_init [[Fin 0]] ramp (Fin 0) 0 (Fin 4) (Fin 1) (Fin 0) = (H, Ok e1) /\
    rd H (m_y e1) = [Fin 0] /\
    eulerm_steps 1 H e1 = (H2, Ok tt, e2) /\ rd H2 (m_y e1) = [Fin 1].
Proof. exact y_changes. Qed.
Print Assumptions C80_y_value_refuted.

(** It always holds the current state, and every other array keeps its contents.
    Missing: that the array read as y keeps its contents, which is false. *)
Theorem C80_only_y_partial :
  forall (lm : libm) n (H : mem (T := f64)) (e : eulerm f64), valid H e ->
    exists H' r e', eulerm_steps n H e = (H', r, e') /\ valid H' e' /\
      euler_steps n (view H e) = (r, view H' e') /\
      m_y e' = m_y e /\ (length H <= length H')%nat /\
      forall q, (q < length H)%nat -> q <> m_y e -> rd H' q = rd H q.
Proof. intros lm. exact eulerm_steps_spec. Qed.
Print Assumptions C80_only_y_partial.

(** * C81 Aircraft that do not exist *)

(** Index -1 of two aircraft: no columns, but the last aircraft's extended lists. *)
Theorem C81_negative_refuted :
  exists r : sim_result nat nat nat, Forall (fun row => length row = 32%nat) (r_states r) /\
    extract_single_result r (-1)
    = Ok (Single (r_status r) (r_times r) (r_modes r) [[]; []] (Some [[8; 10]%nat])).
Proof. exists formation. split; [repeat constructor|exact extract_last]. Qed.
Print Assumptions C81_negative_refuted.

Theorem C81_beyond_refuted :
  exists r : sim_result nat nat nat, Forall (fun row => length row = 32%nat) (r_states r) /\
    extract_single_result r 2 = Ok (Single (r_status r) (r_times r) (r_modes r) [[]; []] None).
Proof.
  exists (mk_result nat nat 0%nat 1%nat 2%nat [seq 0 32; seq 100 32] None).
  split; [repeat constructor|exact extract_beyond].
Qed.
Print Assumptions C81_beyond_refuted.
