(** Concrete runs for Properties_AeroUtil. *)
From Coq Require Import String List ZArith Reals Lra Lia Bool.
From Flocq Require Import Core.Core IEEE754.BinarySingleNaN.
From Verif Require Import PyBase Num XReal Float64 XTac Aero AeroUtil SpecUtil F16Mem EulerMem
  EulerLemmas EulerF64 EulerMemLemmas UtilLemmas.
Import List ListNotations.
Local Open Scope R_scope.
Local Hint Extern 0 (Num xr) => exact (XR Fin) : typeclass_instances.

Lemma C62_ex : exists e0 e,
  euler_init ramp (Fin 0) [Fin 0] (Fin 4) (Fin 3) (Fin 0) = Ok e0 /\
  euler_steps 2 e0 = (Ok tt, e) /\ e_t e = Fin 4 /\ e_y e = [Fin 7] /\ e_running e = false.
Proof.
  unfold euler_init, py_assert. cbn -[euler_steps Rdiv]. rewrite !Rlt_bool_true by lra.
  cbn [bind]. do 2 eexists. split; [reflexivity|]. split.
  { cbn. xstep. reflexivity. }
  split; [reflexivity|]. split; [|reflexivity]. cbn. f_equal. f_equal. lra.
Qed.

(** The array held as [integrator.y] after creation is overwritten by the next step. *)
Lemma y_changes : exists (H : mem) (e1 : eulerm xr) H2 e2,
  eulerm_init [[Fin 0]] ramp (Fin 0) 0 (Fin 4) (Fin 1) (Fin 0) = (H, Ok e1) /\
  rd H (m_y e1) = [Fin 0] /\
  eulerm_steps 1 H e1 = (H2, Ok tt, e2) /\ rd H2 (m_y e1) = [Fin 1].
Proof.
  unfold eulerm_init. cbn -[eulerm_steps Rdiv]. rewrite !Rlt_bool_true by lra. cbn [negb].
  do 4 eexists. split; [reflexivity|]. split; [reflexivity|]. split.
  { cbn. xstep. reflexivity. }
  cbn. f_equal. f_equal. lra.
Qed.

(** A run of one tick inside an altitude and a normal acceleration limit, and one outside. *)
Lemma C65_ex : let lim := limits_of (Build_flight_limits (Some (0, 45000)) (Some (-5, 18)) None None None None) in
  verify lim true [map Fin (one_row 500 0)] [Fin 2] [Fin 0] = Ok tt /\
  verify lim true [map Fin (one_row 500 0)] [Fin (-6)] [Fin 0] = Err AssertionError.
Proof.
  split.
  - apply (verify_checks _ [one_row 500 0] [2] [0]); [repeat constructor|reflexivity..|].
    intros [|i] Hi; [|cbn in Hi; lia]. unfold checked_tick. cbn. repeat split; lra.
  - apply (verify_checks _ [one_row 500 0] [-6] [0]); [repeat constructor|reflexivity..|].
    intros H. apply (verify_checks _ [one_row 500 0] [-6] [0]) in H; [|repeat constructor|reflexivity..].
    specialize (H 0%nat ltac:(cbn; lia)). destruct H as [_ [H _]]. cbn in H. lra.
Qed.

Lemma C66_ex : extract_single_result formation 1
  = Ok (Single 0%nat 1%nat 2%nat [seq 16 16; seq 116 16] (Some [[8; 10]%nat])).
Proof. reflexivity. Qed.
