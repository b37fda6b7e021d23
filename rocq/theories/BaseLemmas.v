(** Proofs about the entity step (C01-C16). *)
From Coq Require Import String List Bool Arith ZArith Lia FunctionalExtensionality Permutation.
From Verif Require Import PyBase Num Arr BaseModel Spec SpecBase NumOrdLemmas ArrLemmas.
Import ListNotations.

Section BL.
  Context {T : Type} {N : Num T}.

  (** ** Dependence on the equation only through the control actually used *)

  Lemma dyn__step_raw (w : world T) d raw' tr h s u :
    (forall t x, d_raw d t x u = raw' t x u) ->
    dyn__step w (dyn_set_raw d raw') tr h s u = dyn__step w d tr h s u.
  Proof.
    intros H.
    assert (C : forall t x, compute_state_dot (dyn_set_raw d raw') t x u = compute_state_dot d t x u).
    { intros t x. unfold compute_state_dot. simpl. rewrite H. reflexivity. }
    assert (J : forall t x, compute_state_dot_jax (dyn_set_raw d raw') x t u = compute_state_dot_jax d x t u).
    { intros t x. unfold compute_state_dot_jax. simpl. rewrite H. reflexivity. }
    assert (C' : (fun t x => compute_state_dot (dyn_set_raw d raw') t x u) = (fun t x => compute_state_dot d t x u)).
    { extensionality t. extensionality x. apply C. }
    assert (J' : (fun x t => compute_state_dot_jax (dyn_set_raw d raw') x t u) = (fun x t => compute_state_dot_jax d x t u)).
    { extensionality x. extensionality t. apply J. }
    unfold dyn__step. cbn [d_method d_samples d_use_jax dyn_set_raw].
    rewrite C', J'.
    destruct (String.eqb (d_method d) "RK45").
    { destruct (w_solve_ivp w _ h s _) as [sol|]; [|reflexivity].
      destruct (sol_y sol) as [|r rs]; [reflexivity|].
      f_equal. unfold bind. destruct (last_row (r :: rs)); [|reflexivity]. rewrite C. reflexivity. }
    destruct (String.eqb (d_method d) "RK45_JAX").
    { f_equal. destruct (negb (d_use_jax d)); [reflexivity|].
      unfold bind. destruct (py_assert _); [|reflexivity].
      destruct (w_odeint w _ s _); [|reflexivity].
      destruct (last_row a0); [|reflexivity]. rewrite C. reflexivity. }
    destruct (String.eqb (d_method d) "Euler"); [|reflexivity].
    f_equal. unfold bind. destruct (py_assert _); [|reflexivity]. rewrite C. reflexivity.
  Qed.

  Lemma dyn_step_raw (w : world T) d raw' tr h s u :
    (forall t x, d_raw d t x u = raw' t x u) ->
    dyn_step w (dyn_set_raw d raw') tr h s u = dyn_step w d tr h s u.
  Proof.
    intros H. unfold dyn_step. rewrite dyn__step_raw by assumption. reflexivity.
  Qed.

  (** Any property of the clipped control transfers to the step. *)
  Lemma entity_step_raw (w : world T) e raw' h a :
    (forall c c' t x, decode_action w e a = Ok c -> np_clip c (e_cmin e) (e_cmax e) = Ok c' ->
       d_raw (e_dyn e) t x c' = raw' t x c') ->
    same_outcome (entity_step w (set_raw e raw') h a) (entity_step w e h a).
  Proof.
    intros H. unfold entity_step.
    assert (D : decode_action w (set_raw e raw') a = decode_action w e a) by (destruct a; reflexivity).
    rewrite D. cbn [e_cmin e_cmax e_dyn e_traj e_state set_raw].
    destruct (decode_action w e a) as [c|x] eqn:Ec; [|repeat split].
    destruct (out_of_bounds c (e_cmin e) (e_cmax e)) as [warn|x]; [|repeat split].
    destruct (np_clip c (e_cmin e) (e_cmax e)) as [c'|x] eqn:Ecl; [|repeat split].
    rewrite dyn_step_raw by (intros; eapply H; [reflexivity | eassumption]).
    destruct (dyn_step w (e_dyn e) (e_traj e) h (e_state e) c') as [tr [[s' sd]|x]]; repeat split.
  Qed.

  (** ** Configuration never changes *)

  Lemma entity_step_config (w : world T) e h a : same_config (o_entity (entity_step w e h a)) e.
  Proof.
    unfold entity_step, same_config.
    destruct (decode_action w e a); [|repeat split].
    destruct (out_of_bounds _ _ _); [|repeat split].
    destruct (np_clip _ _ _); [|repeat split].
    destruct (dyn_step _ _ _ _ _ _) as [tr [[s' sd]|x]]; repeat split.
  Qed.

  Lemma same_config_trans (e1 e2 e3 : entity T) :
    same_config e1 e2 -> same_config e2 e3 -> same_config e1 e3.
  Proof. unfold same_config. intuition congruence. Qed.

  Lemma exec_config (w : world T) e o : same_config (exec w e o) e.
  Proof. destruct o; simpl; [apply entity_step_config | repeat split]. Qed.

  Lemma exec_all_config (w : world T) l e : same_config (exec_all w e l) e.
  Proof.
    unfold exec_all. revert e; induction l as [|o l IH]; intros e; simpl.
    - repeat split.
    - eapply same_config_trans; [apply IH | apply exec_config].
  Qed.

  (** ** Failure leaves the state alone *)

  Lemma entity_step_err (w : world T) e h a x :
    o_res (entity_step w e h a) = Err x ->
    e_state (o_entity (entity_step w e h a)) = e_state e /\
    e_sdot (o_entity (entity_step w e h a)) = e_sdot e.
  Proof.
    unfold entity_step.
    destruct (decode_action w e a); [|split; reflexivity].
    destruct (out_of_bounds _ _ _); [|split; reflexivity].
    destruct (np_clip _ _ _); [|split; reflexivity].
    destruct (dyn_step _ _ _ _ _ _) as [tr [[s' sd]|y]]; simpl; [discriminate | split; reflexivity].
  Qed.

  Lemma dyn_step_traj_err (w : world T) d tr h s u :
    d_method d <> "RK45"%string -> fst (dyn_step w d tr h s u) = tr.
  Proof.
    intros H. unfold dyn_step, dyn__step.
    destruct (String.eqb_spec (d_method d) "RK45"); [contradiction|].
    destruct (String.eqb (d_method d) "RK45_JAX"); [reflexivity|].
    destruct (String.eqb (d_method d) "Euler"); reflexivity.
  Qed.

  Lemma entity_step_traj (w : world T) e h a :
    d_method (e_dyn e) <> "RK45"%string ->
    e_traj (o_entity (entity_step w e h a)) = e_traj e.
  Proof.
    intros H. unfold entity_step.
    destruct (decode_action w e a); [|reflexivity].
    destruct (out_of_bounds _ _ _); [|reflexivity].
    destruct (np_clip _ _ _) as [c'|]; [|reflexivity].
    pose proof (dyn_step_traj_err w (e_dyn e) (e_traj e) h (e_state e) c' H) as Q.
    destruct (dyn_step _ _ _ _ _ _) as [tr [[s' sd]|y]]; simpl in *; assumption.
  Qed.

  (** ** Inversion of a successful step *)

  Lemma dyn_step_inv (w : world T) d tr h s u tr' s' sd :
    dyn_step w d tr h s u = (tr', Ok (s', sd)) ->
    exists n m, dyn__step w d tr h s u = (tr', Ok (n, sd)) /\
      np_clip n (d_min d) (d_max d) = Ok m /\ wrap_angles d m = Ok s'.
  Proof.
    unfold dyn_step. destruct (dyn__step w d tr h s u) as [tr1 r]. intros H.
    injection H as -> H. destruct r as [[n sd1]|]; [|discriminate]. simpl in H.
    destruct (np_clip n (d_min d) (d_max d)) as [m|] eqn:E; [|discriminate]. simpl in H.
    destruct (wrap_angles d m) as [q|] eqn:E2; [|discriminate]. simpl in H.
    injection H as -> ->. exists n, m. auto.
  Qed.

  Lemma entity_step_ok (w : world T) e h a :
    o_res (entity_step w e h a) = Ok tt ->
    exists c c' tr, decode_action w e a = Ok c /\ np_clip c (e_cmin e) (e_cmax e) = Ok c' /\
      dyn_step w (e_dyn e) (e_traj e) h (e_state e) c' =
      (tr, Ok (e_state (o_entity (entity_step w e h a)), e_sdot (o_entity (entity_step w e h a)))) /\
      e_traj (o_entity (entity_step w e h a)) = tr.
  Proof.
    unfold entity_step.
    destruct (decode_action w e a) as [c|] eqn:E1; [|discriminate].
    destruct (out_of_bounds _ _ _); [|discriminate].
    destruct (np_clip c _ _) as [c'|] eqn:E2; [|discriminate].
    destruct (dyn_step w (e_dyn e) (e_traj e) h (e_state e) c') as [tr [[s' sd]|y]] eqn:E; simpl; [|discriminate].
    intros _. exists c, c', tr. auto.
  Qed.

  (** ** State limits *)

  Lemma wrap_angles_at (d : dyn T) (s r : arr T) i :
    wrap_angles d s = Ok r ->
    match d_wrap d with
    | None => bnth r i = bnth s i
    | Some c =>
        bnth r i = match bnth s i, bnth c i with
                   | Some x, Some cc => Some (if nisnan cc then x else wrap1 cc x)
                   | _, _ => None
                   end
    end.
  Proof.
    unfold wrap_angles. destruct (d_wrap d) as [c|]; [|intros H; injection H as ->; reflexivity].
    unfold bind. destruct (bmap2 _ s c) as [wr|] eqn:E; [|discriminate].
    intros H. rewrite (bnth_where _ _ _ _ i H), bnth_amap, (bnth_bmap2 _ _ _ _ i E).
    destruct (bnth s i), (bnth c i); simpl; try reflexivity.
    destruct (nisnan t0); reflexivity.
  Qed.

  Context {O : NumOrd T}.

  Lemma step_in_limits (w : world T) e h a :
    limits_ok (d_min (e_dyn e)) (d_max (e_dyn e)) ->
    o_res (entity_step w e h a) = Ok tt ->
    forall i x l u,
      bnth (e_state (o_entity (entity_step w e h a))) i = Some x ->
      bnth (d_min (e_dyn e)) i = Some l -> bnth (d_max (e_dyn e)) i = Some u ->
      ~ wrapped_at (e_dyn e) i ->
      nisnan x = true \/ (nleb l x = true /\ nleb x u = true).
  Proof.
    intros L H i x l u Hx Hl Hu NW.
    destruct (entity_step_ok _ _ _ _ H) as (c & c' & tr & _ & _ & D & _).
    destruct (dyn_step_inv _ _ _ _ _ _ _ _ _ D) as (n & m & _ & Cl & Wr).
    pose proof (wrap_angles_at _ _ _ i Wr) as Q.
    assert (M : bnth m i = Some x).
    { destruct (d_wrap (e_dyn e)) as [cc|] eqn:Ew; [|congruence].
      rewrite Hx in Q. destruct (bnth m i) as [y|]; [|discriminate].
      destruct (bnth cc i) as [z|] eqn:Ez; [|discriminate].
      destruct (nisnan z) eqn:Nz; [congruence|].
      exfalso. apply NW. exists cc, z. auto. }
    eapply (clip_in_limits n); eauto.
  Qed.

  (** Invariant: once a step has succeeded, the limits hold after any further steps
      (successful or not). *)
  Lemma steps_keep_limits (w : world T) e (l : list (T * action T)) :
    limits_ok (d_min (e_dyn e)) (d_max (e_dyn e)) ->
    forall i lo hi,
    bnth (d_min (e_dyn e)) i = Some lo -> bnth (d_max (e_dyn e)) i = Some hi ->
    ~ wrapped_at (e_dyn e) i ->
    (forall x, bnth (e_state e) i = Some x -> nisnan x = true \/ (nleb lo x = true /\ nleb x hi = true)) ->
    forall x, bnth (e_state (exec_all w e (map (fun p => OStep (fst p) (snd p)) l))) i = Some x ->
      nisnan x = true \/ (nleb lo x = true /\ nleb x hi = true).
  Proof.
    revert e. induction l as [|[h a] l IH]; intros e L i lo hi Hlo Hhi NW Inv x Hx.
    - apply Inv. exact Hx.
    - simpl in Hx. unfold exec_all in IH.
      destruct (entity_step_config w e h a) as (Cd & _).
      eapply (IH (o_entity (entity_step w e h a))); try (rewrite Cd; eassumption); [|exact Hx].
      intros y Hy. destruct (o_res (entity_step w e h a)) as [[]|ex] eqn:R.
      + eapply step_in_limits; eauto.
      + destruct (entity_step_err _ _ _ _ _ R) as [Es _]. rewrite Es in Hy. auto.
  Qed.
End BL.
