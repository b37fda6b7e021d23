(** What an Euler step does to memory (C62, C80). *)
From Coq Require Import List ZArith Bool Lia.
From Verif Require Import PyBase Num Aero AeroUtil F16Mem F16MemLemmas EulerMem.
Import ListNotations.

Section Mem.
  Context {T : Type} {N : Num T}.

  Lemma wr_length (H : mem (T := T)) p v : length (wr H p v) = length H.
  Proof. revert p. induction H; intros [|p]; cbn; congruence. Qed.
  Lemma rd_wr (H : mem (T := T)) p v : p < length H -> rd (wr H p v) p = v.
  Proof.
    unfold rd. revert p. induction H; intros [|p] L; cbn in *; try lia; [reflexivity|].
    apply IHlist. lia.
  Qed.
  Lemma rd_wr_other (H : mem (T := T)) p q v : p <> q -> rd (wr H p v) q = rd H q.
  Proof.
    unfold rd. revert p q. induction H; intros [|p] [|q] L; cbn; try reflexivity; try lia.
    apply IHlist. lia.
  Qed.

  (** The object as plain values. *)
  Definition view (H : mem (T := T)) (e : eulerm T) : euler T :=
    mk_euler (m_der e) (m_tstep e) (m_t e) (rd H (m_y e)) (option_map (rd H) (m_yprev e)) (m_tprev e)
      (m_tend e) (m_running e) (m_tol e).

  Definition valid (H : mem (T := T)) (e : eulerm T) : Prop :=
    m_y e < length H /\
    match m_yprev e with Some p => p < length H /\ p <> m_y e | None => True end.

  Lemma eulerm_init_spec (H : mem (T := T)) der t0 p tend h tol : p < length H ->
    exists new r, eulerm_init H der t0 p tend h tol = (H ++ new, r) /\
      match euler_init der t0 (rd H p) tend h tol with
      | Err x => r = Err x
      | Ok e0 => exists e, r = Ok e /\ valid (H ++ new) e /\ view (H ++ new) e = e0 /\ length H <= m_y e
      end.
  Proof.
    intros Hp. unfold eulerm_init, euler_init, py_assert.
    destruct (nltb n0 h); cbn; [|exists [], (Err AssertionError); rewrite app_nil_r; split; reflexivity].
    destruct (nltb t0 tend); cbn; [|exists [], (Err AssertionError); rewrite app_nil_r; split; reflexivity].
    eexists _, _. split; [reflexivity|]. eexists. split; [reflexivity|].
    unfold valid, view. cbn. rewrite app_length. cbn. split; [split; [lia|exact Logic.I]|]. split; [|lia].
    f_equal. pose proof (rd_new H [rd H p] 0) as E. rewrite Nat.add_0_r in E. exact E.
  Qed.

  Lemma eulerm_step_spec (H : mem (T := T)) (e : eulerm T) : valid H e ->
    exists H' r e', eulerm_step H e = (H', r, e') /\ valid H' e' /\
      euler_step (view H e) = (r, view H' e') /\
      m_y e' = m_y e /\ length H <= length H' /\
      forall q, q < length H -> q <> m_y e -> rd H' q = rd H q.
  Proof.
    intros [V1 V2]. unfold eulerm_step, euler_step. unfold view at 1. cbn [e_running e_der e_t e_y].
    destruct (m_running e) eqn:Er.
    2: { exists H, (Ok tt), e. unfold view. cbn. rewrite Er. repeat split; auto. }
    cbn [e_der e_t e_y e_tstep e_tend e_tol view].
    rewrite rd_old by exact V1.
    assert (P : forall e1, m_y e1 = m_y e -> m_yprev e1 = Some (length H) -> valid (H ++ [rd H (m_y e)]) e1).
    { intros e1 E1 E2. unfold valid. rewrite E1, E2, app_length. cbn. lia. }
    pose proof (rd_new H [rd H (m_y e)] 0) as Q. rewrite Nat.add_0_r in Q.
    change (rd [rd H (m_y e)] 0) with (rd H (m_y e)) in Q.
    destruct (m_der e (m_t e) (rd H (m_y e))) as [yd|x].
    2: { eexists _, _, _. split; [reflexivity|]. split; [apply P; reflexivity|]. split.
         - unfold view. cbn [option_map m_der m_tstep m_t m_y m_yprev m_tprev m_tend m_running m_tol].
           rewrite Q, rd_old by exact V1. reflexivity.
         - split; [reflexivity|]. split; [rewrite app_length; lia|]. intros q L _. apply rd_old, L. }
    cbv zeta. destruct (add_scaled _ _ _) as [y|x].
    2: { eexists _, _, _. split; [reflexivity|]. split; [apply P; reflexivity|]. split.
         - unfold view. cbn [option_map m_der m_tstep m_t m_y m_yprev m_tprev m_tend m_running m_tol].
           rewrite Q, rd_old by exact V1. reflexivity.
         - split; [reflexivity|]. split; [rewrite app_length; lia|]. intros q L _. apply rd_old, L. }
    eexists _, _, _. split; [reflexivity|]. split.
    { unfold valid. cbn. rewrite wr_length, app_length. cbn. lia. }
    split.
    { unfold view. cbn [option_map m_der m_tstep m_t m_y m_yprev m_tprev m_tend m_running m_tol].
      rewrite rd_wr by (rewrite app_length; cbn; lia).
      rewrite rd_wr_other by lia. rewrite Q. reflexivity. }
    split; [reflexivity|]. split; [rewrite wr_length, app_length; lia|].
    intros q L Hq. rewrite rd_wr_other by (cbn; congruence). apply rd_old, L.
  Qed.

  Lemma eulerm_steps_spec n : forall (H : mem (T := T)) (e : eulerm T), valid H e ->
    exists H' r e', eulerm_steps n H e = (H', r, e') /\ valid H' e' /\
      euler_steps n (view H e) = (r, view H' e') /\
      m_y e' = m_y e /\ length H <= length H' /\
      forall q, q < length H -> q <> m_y e -> rd H' q = rd H q.
  Proof.
    induction n; intros H e V.
    - exists H, (Ok tt), e. split; [reflexivity|]. split; [exact V|]. repeat split; auto.
    - cbn [eulerm_steps euler_steps].
      destruct (eulerm_step_spec H e V) as [H1 [r [e1 [E [V1 [S1 [Y1 [L1 K1]]]]]]]].
      rewrite E, S1. destruct r as [u|x].
      + destruct (IHn H1 e1 V1) as [H2 [r2 [e2 [E2 [V2 [S2 [Y2 [L2 K2]]]]]]]].
        exists H2, r2, e2. rewrite E2, S2. split; [reflexivity|]. split; [exact V2|].
        split; [reflexivity|]. split; [congruence|]. split; [lia|].
        intros q L Hq. rewrite K2 by (congruence || lia). apply K1; assumption.
      + exists H1, (Err x), e1. split; [reflexivity|]. split; [exact V1|]. repeat split; assumption.
  Qed.

  (** Creating an integrator and stepping it any number of times changes no array that existed
      before, in particular not the caller's start vector, and computes what the plain integrator
      does. *)
  Lemma eulerm_run (H : mem (T := T)) der t0 p tend h tol n e0 : p < length H ->
    euler_init der t0 (rd H p) tend h tol = Ok e0 ->
    exists H1 e1 H2 r e2,
      eulerm_init H der t0 p tend h tol = (H1, Ok e1) /\
      eulerm_steps n H1 e1 = (H2, r, e2) /\
      euler_steps n e0 = (r, view H2 e2) /\
      forall q, q < length H -> rd H2 q = rd H q.
  Proof.
    intros Hp E0. destruct (eulerm_init_spec H der t0 p tend h tol Hp) as [new [r0 [I0 S0]]].
    rewrite E0 in S0. destruct S0 as [e1 [-> [V1 [W1 L1]]]].
    destruct (eulerm_steps_spec n _ e1 V1) as [H2 [r [e2 [E2 [V2 [S2 [Y2 [L2 K2]]]]]]]].
    exists (H ++ new), e1, H2, r, e2. split; [exact I0|]. split; [exact E2|].
    split; [rewrite <- W1; exact S2|].
    intros q L. rewrite K2; [apply rd_old, L|rewrite app_length; lia|lia].
  Qed.

  (** The array read from [integrator.y] keeps its identity and is overwritten by later steps. *)
  Lemma eulerm_y_shared (H : mem (T := T)) (e : eulerm T) n : valid H e ->
    exists H' r e', eulerm_steps n H e = (H', r, e') /\ m_y e' = m_y e /\
      rd H' (m_y e) = e_y (snd (euler_steps n (view H e))).
  Proof.
    intros V. destruct (eulerm_steps_spec n H e V) as [H' [r [e' [E [V' [S [Y _]]]]]]].
    exists H', r, e'. split; [exact E|]. split; [exact Y|]. rewrite S. cbn. rewrite Y. reflexivity.
  Qed.
End Mem.
