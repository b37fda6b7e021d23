(** The six-degrees-of-freedom spacecraft over exact reals with rounding [rd] for the
    binary32 casts. *)
From Coq Require Import String List Bool Arith ZArith Lia Reals Lra.
From Flocq Require Import Core.Core.
From Verif Require Import PyBase Num Arr BaseModel Cwh Utils SixDof Spec SpecBase SpecWrap XReal NumOrdLemmas ArrLemmas
  BaseLemmas BaseLemmas2 BaseLemmas3 BaseLemmas4 WrapLemmas XTac SpecRk SpecCwh SpecSixDof RkLemmas CwhLemmas LimLemmas Rot2dLemmas.
Import List ListNotations.

Section G.
  Context {T : Type} {N : Num T}.

  Lemma sixdof_dyn_inv (m : T) I v0 v1 v2 n body samples method d :
    sixdof_dyn m I (v0, v1, v2) n body samples method = Ok d ->
    d_min d = A1 [nninf; nninf; nninf; nninf; nninf; nninf; nninf; nninf; nninf; nninf; nneg v0; nneg v1; nneg v2] /\
    d_max d = A1 [npinf; npinf; npinf; npinf; npinf; npinf; npinf; npinf; npinf; npinf; v0; v1; v2] /\
    d_sdmin d = no_min /\ d_sdmax d = no_max /\ d_wrap d = None /\ d_samples d = samples /\ d_method d = method /\
    exists A B, generate_cwh_matrices m n "3d" = Ok (A, B) /\
                d_raw d = affine_raw (sixdof_f A I) (sixdof_g B I m body).
  Proof.
    unfold sixdof_dyn. destruct (generate_cwh_matrices m n "3d") as [[A B]|] eqn:E; [|discriminate]. cbn [bind].
    destruct (py_assert _); [|discriminate]. cbn [bind]. destruct (py_assert _); [|discriminate]. cbn [bind].
    intros H. injection H as <-. cbn. repeat (split; [reflexivity|]). exists A, B. auto.
  Qed.

  Lemma sixdof_craft_inv (m : T) I al vl iw aw vw thr body n samples method x y z q1 q2 q3 q4 vx vy vz wx wy wz e :
    sixdof_spacecraft m I al vl iw aw vw thr body n samples method x y z q1 q2 q3 q4 vx vy vz wx wy wz = Ok e ->
    exists a0 a1 a2 v0 v1 v2 da dv,
      number_list_to_np al [3] = Ok da /\ nd_data da = Some [a0; a1; a2] /\
      number_list_to_np vl [3] = Ok dv /\ nd_data dv = Some [v0; v1; v2] /\
      sixdof_dyn m I (sixdof_limit v0 iw vw (m00 I), sixdof_limit v1 iw vw (m11 I), sixdof_limit v2 iw vw (m22 I))
        n body samples method = Ok (e_dyn e) /\
      e_cmax e = A1 [thr; thr; thr; nmul (sixdof_limit a0 iw aw (m00 I)) (m00 I);
        nmul (sixdof_limit a1 iw aw (m11 I)) (m11 I); nmul (sixdof_limit a2 iw aw (m22 I)) (m22 I)] /\
      e_cmin e = amap (nmul (nZ (-1))) (e_cmax e) /\
      e_default e = A1 [n0; n0; n0; n0; n0; n0] /\
      e_state e = A1 (map nf32 [x; y; z; q1; q2; q3; q4; vx; vy; vz; wx; wy; wz]) /\
      e_cmap e = Some sixdof_control_map.
  Proof.
    unfold sixdof_spacecraft.
    destruct (number_list_to_np al [3]) as [da|]; [|discriminate]. cbn [bind].
    destruct (number_list_to_np vl [3]) as [dv|]; [|discriminate]. cbn [bind].
    unfold limit3. destruct (nd_data da) as [[|a0 [|a1 [|a2 []]]]|] eqn:Ea; try discriminate. cbn [bind].
    destruct (nd_data dv) as [[|v0 [|v1 [|v2 []]]]|] eqn:Ev; try discriminate. cbn [bind].
    destruct (sixdof_dyn _ _ _ _ _ _ _) as [d|] eqn:E; [|discriminate]. cbn [bind].
    intros H. injection H as <-. exists a0, a1, a2, v0, v1, v2, da, dv. cbn. repeat split; auto.
  Qed.
End G.

Section X.
  Variable rd : R -> R.
  Local Hint Extern 0 (Num xr) => exact (XR (fun x => Fin (rd x))) : typeclass_instances.
  Local Open Scope R_scope.

  (** Raw and limited derivative. *)
  Definition sd_raw (m i0 i1 i2 n : R) (body : bool) (p : vec) (q : quat) (v w f M : vec) : list R :=
    sd_state (map3 rd v) (map4 rd (qscale (1/2) (qmul q (w, 0))))
      (add3 (map3 rd (sd_cw n p v)) (scale3 (/ m) (sd_thrust body q f)))
      (add3 (map3 rd (sd_gyro i0 i1 i2 w)) (div3 M i0 i1 i2)).
  Definition sd_rates (m i0 i1 i2 n : R) (lim : vec) (body : bool) (p : vec) (q : quat) (v w f M : vec) : list R :=
    sd_state (map3 rd v) (map4 rd (qscale (1/2) (qmul q (w, 0))))
      (add3 (map3 rd (sd_cw n p v)) (scale3 (/ m) (sd_thrust body q f)))
      (stop3 lim w (add3 (map3 rd (sd_gyro i0 i1 i2 w)) (div3 M i0 i1 i2))).

  Lemma sixdof_raw m I i0 i1 i2 vel n body samples method d :
    m <> 0 -> i0 <> 0 -> i1 <> 0 -> i2 <> 0 -> m00 I = Fin i0 -> m11 I = Fin i1 -> m22 I = Fin i2 ->
    sixdof_dyn (Fin m) I vel (Fin n) body samples method = Ok d ->
    forall t p q v w f M,
      d_raw d t (A1 (map Fin (sd_state p q v w))) (A1 (map Fin (sd_ctrl f M))) =
      Ok (A1 (map Fin (sd_raw m i0 i1 i2 n body p q v w f M))).
  Proof.
    intros Hm H0 H1 H2 E0 E1 E2 E t [[x y] z] [[[q1 q2] q3] q4] [[vx vy] vz] [[wx wy] wz] [[fx fy] fz] [[mx my] mz].
    destruct vel as [[v0 v1] v2].
    destruct (sixdof_dyn_inv _ _ _ _ _ _ _ _ _ _ E) as (_ & _ & _ & _ & _ & _ & _ & A & B & G & ->).
    revert G. unfold generate_cwh_matrices, pydiv. cbn.
    rewrite (Req_bool_false m (0/1)) by lra. cbn. rewrite (Req_bool_false m 0) by lra.
    intros G. injection G as <- <-.
    unfold affine_raw, sixdof_f, sixdof_g, pydiv, sd_state, sd_ctrl. cbn [map]. rewrite E0, E1, E2.
    assert (Q : forall a b c d, a = b -> c = d -> rd a + c = rd b + d) by (intros; subst; auto).
    assert (Q0 : forall a b c, a = b -> c = 0 -> rd a + c = rd b) by (intros; subst; lra).
    destruct body.
    - cbn. repeat (rewrite ?(Req_bool_false m (0/1)), ?(Req_bool_false m 0), ?(Req_bool_false i0 0), ?(Req_bool_false i1 0), ?(Req_bool_false i2 0) by lra; cbn).
      fin_list; first [apply Q0; field; auto | apply Q; field; auto].
    - cbn. repeat (rewrite ?(Req_bool_false i0 0), ?(Req_bool_false i1 0), ?(Req_bool_false i2 0) by lra; cbn).
      fin_list; first [apply Q0; field; auto | apply Q; field; auto].
  Qed.

  Lemma sixdof_csd m I i0 i1 i2 l0 l1 l2 n body samples method d :
    m <> 0 -> i0 <> 0 -> i1 <> 0 -> i2 <> 0 -> m00 I = Fin i0 -> m11 I = Fin i1 -> m22 I = Fin i2 ->
    sixdof_dyn (Fin m) I (Fin l0, Fin l1, Fin l2) (Fin n) body samples method = Ok d ->
    forall t p q v w f M,
      compute_state_dot d t (A1 (map Fin (sd_state p q v w))) (A1 (map Fin (sd_ctrl f M))) =
      Ok (A1 (map Fin (sd_rates m i0 i1 i2 n (l0, l1, l2) body p q v w f M))).
  Proof.
    intros Hm H0 H1 H2 E0 E1 E2 E t p q v w f M.
    destruct (sixdof_dyn_inv _ _ _ _ _ _ _ _ _ _ E) as (D1 & D2 & D3 & D4 & _).
    pose proof (sixdof_raw m I i0 i1 i2 _ n body _ _ _ Hm H0 H1 H2 E0 E1 E2 E t p q v w f M) as Q.
    destruct p as [[x y] z], q as [[[q1 q2] q3] q4], v as [[vx vy] vz], w as [[wx wy] wz], f as [[fx fy] fz], M as [[mx my] mz].
    erewrite csd_list; [|..|exact Q]; rewrite ?D1, ?D2, ?D3, ?D4; try reflexivity.
    2: unfold sd_raw; destruct (sd_thrust _ _ _) as [[? ?] ?]; reflexivity.
    unfold sd_raw, sd_rates. destruct (sd_thrust body _ _) as [[tx ty] tz].
    cbv [sd_state map3 map4 qscale qmul sd_cw sd_gyro stop3 div3 add3 scale3 cross dot3 fst snd].
    cbn [no_min no_max expand lim_list map length repeat nneg XR xneg].
    change (@nninf xr _) with NInf. change (@npinf xr _) with PInf.
    rewrite !limited_inf, !limited_state. reflexivity.
  Qed.
End X.
