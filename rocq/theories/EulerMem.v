(** The Euler integrator of safe_autonomy_dynamics/external/aerobench/util.py (72-107) on a memory
    of arrays: which arrays it allocates and which it writes. The derivative function reads the
    array it is given and returns a new one. *)
From Coq Require Import List ZArith Bool.
From Verif Require Import PyBase Num Aero AeroUtil F16Mem.
Import ListNotations.

Section Mem.
  Context {T : Type} {N : Num T}.
  Local Open Scope num_scope.

  (** util.py 76-88: [y] and [yprev] are references to arrays. *)
  Record eulerm : Type := mk_eulerm {
    m_der : T -> list T -> res (list T);
    m_tstep : T; m_t : T; m_y : nat; m_yprev : option nat; m_tprev : option T;
    m_tend : T; m_running : bool; m_tol : T
  }.

  (** util.py 72-88; line 79 copies the caller's array. *)
  Definition eulerm_init (H : mem (T := T)) (der : T -> list T -> res (list T)) (tstart : T) (pstart : nat)
      (tend step time_tol : T) : mem (T := T) * res eulerm :=
    if negb (nltb n0 step) then (H, Err AssertionError)
    else if negb (nltb tstart tend) then (H, Err AssertionError)
    else (H ++ [rd H pstart],
          Ok (mk_eulerm der step tstart (length H) None None tend true time_tol)).

  (** util.py 90-107; line 94 copies y, line 104 adds into it. *)
  Definition eulerm_step (H : mem (T := T)) (e : eulerm) : mem (T := T) * res unit * eulerm :=
    if m_running e then
      let py := m_y e in
      let H1 := H ++ [rd H py] in
      let pp := length H in
      match m_der e (m_t e) (rd H1 py) with
      | Err x => (H1, Err x, mk_eulerm (m_der e) (m_tstep e) (m_t e) py (Some pp) (Some (m_t e))
                               (m_tend e) true (m_tol e))
      | Ok yd =>
          let t := m_t e + m_tstep e in
          let t := if nleb (m_tend e) (t + m_tol e) then m_tend e else t in
          let dt := t - m_t e in
          match add_scaled (rd H1 py) dt yd with
          | Err x => (H1, Err x, mk_eulerm (m_der e) (m_tstep e) t py (Some pp) (Some (m_t e))
                                   (m_tend e) true (m_tol e))
          | Ok y => (wr H1 py y, Ok tt,
                     mk_eulerm (m_der e) (m_tstep e) t py (Some pp) (Some (m_t e)) (m_tend e)
                               (negb (neqb t (m_tend e))) (m_tol e))
          end
      end
    else (H, Ok tt, e).

  (** [n] calls of [step], stopping at the first exception *)
  Fixpoint eulerm_steps (n : nat) (H : mem (T := T)) (e : eulerm) : mem (T := T) * res unit * eulerm :=
    match n with
    | O => (H, Ok tt, e)
    | S m => match eulerm_step H e with
             | (H', Ok _, e') => eulerm_steps m H' e'
             | r => r
             end
    end.
End Mem.
Arguments eulerm : clear implicits.
