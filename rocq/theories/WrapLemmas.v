(** Angle wrapping over exact reals. *)
From Coq Require Import String List Bool Arith ZArith Reals Lra Lia.
From Flocq Require Import Core.Raux.
From Verif Require Import PyBase Num Arr BaseModel XReal NumOrdLemmas Spec SpecBase SpecWrap ArrLemmas BaseLemmas BaseLemmas2.
Import ListNotations.
Local Open Scope R_scope.

Section W.
  Variable r32 : R -> xr.
  Local Hint Extern 0 (Num xr) => exact (XR r32) : typeclass_instances.

  Lemma nZ_Fin z : nZ z = Fin (IZR z).
  Proof. unfold nZ. simpl. f_equal. lra. Qed.

  Lemma n0_Fin : n0 = Fin 0.
  Proof. apply nZ_Fin. Qed.
  Lemma n1_Fin : n1 = Fin 1.
  Proof. apply nZ_Fin. Qed.

  Definition wrapR (c s : R) : R := s - 2 * PI * IZR (Zfloor ((s + PI) / (2 * PI))) + c.

  Lemma wrap1_Fin c s : wrap1 (Fin c) (Fin s) = Fin (wrapR c s).
  Proof.
    unfold wrap1. rewrite nZ_Fin. simpl.
    pose proof PI_RGT_0. rewrite Req_bool_false by lra. simpl. f_equal. unfold wrapR.
    replace (IZR 2) with 2 by reflexivity. ring.
  Qed.

  Lemma wrapR_range c s : c - PI <= wrapR c s < c + PI.
  Proof.
    unfold wrapR. pose proof PI_RGT_0.
    pose proof (Zfloor_lb ((s + PI) / (2 * PI))) as A.
    pose proof (Zfloor_ub ((s + PI) / (2 * PI))) as B.
    set (k := IZR (Zfloor ((s + PI) / (2 * PI)))) in *.
    assert (E : s + PI = 2 * PI * ((s + PI) / (2 * PI))) by (field; lra).
    set (q := (s + PI) / (2 * PI)) in *.
    assert (2 * PI * k <= 2 * PI * q) by (apply Rmult_le_compat_l; lra).
    assert (2 * PI * q < 2 * PI * (k + 1)) by (apply Rmult_lt_compat_l; lra).
    lra.
  Qed.

  Lemma wrapR_turns c s : same_angle (s + c) (wrapR c s).
  Proof. exists (Zfloor ((s + PI) / (2 * PI))). unfold wrapR. lra. Qed.

  Lemma wrapR_id c s : - PI <= s < PI -> wrapR c s = s + c.
  Proof.
    intros H. unfold wrapR. pose proof PI_RGT_0.
    rewrite (Zfloor_imp 0); [lra|]. simpl. split.
    - apply Rmult_le_reg_r with (2 * PI); [lra|]. unfold Rdiv. rewrite Rmult_assoc, Rinv_l; lra.
    - apply Rmult_lt_reg_r with (2 * PI); [lra|]. unfold Rdiv. rewrite Rmult_assoc, Rinv_l; lra.
  Qed.

  (** Congruent values within one turn are equal. *)
  Lemma turns_unique a b x y : - PI <= x < PI -> - PI <= y < PI -> same_angle a b ->
    same_angle a x -> same_angle b y -> x = y.
  Proof.
    intros Hx Hy [k Hk] [k1 H1] [k2 H2]. pose proof PI_RGT_0.
    assert (E : x - y = 2 * PI * IZR (k2 + k - k1)).
    { rewrite minus_IZR, plus_IZR. lra. }
    assert (B : IZR (-1) < IZR (k2 + k - k1) < IZR 1).
    { split; apply Rmult_lt_reg_l with (2 * PI); lra. }
    destruct B as [B1 B2]. apply lt_IZR in B1, B2.
    replace (k2 + k - k1)%Z with 0%Z in E by lia. simpl in E. lra.
  Qed.

  Lemma wrap1_nonfin c s : (forall r, s <> Fin r) -> wrap1 c s = NaN.
  Proof.
    intros H. unfold wrap1. rewrite nZ_Fin. simpl. destruct s; simpl; try reflexivity.
    exfalso. apply (H r). reflexivity.
  Qed.

  Lemma step_set_wrap (w : world xr) e h a c :
    o_res (entity_step w e h a) = Ok tt ->
    d_wrap (e_dyn e) = Some c ->
    o_res (entity_step w (set_wrap e None) h a) = Ok tt /\
    e_sdot (o_entity (entity_step w (set_wrap e None) h a)) = e_sdot (o_entity (entity_step w e h a)) /\
    e_traj (o_entity (entity_step w (set_wrap e None) h a)) = e_traj (o_entity (entity_step w e h a)) /\
    wrap_angles (e_dyn e) (e_state (o_entity (entity_step w (set_wrap e None) h a))) =
      Ok (e_state (o_entity (entity_step w e h a))).
  Proof.
    intros H Hc. unfold entity_step in *.
    assert (D : decode_action w (set_wrap e None) a = decode_action w e a) by (destruct a; reflexivity).
    rewrite D. cbn [e_cmin e_cmax e_dyn e_traj e_state set_wrap] in *.
    destruct (decode_action w e a) as [u|] eqn:E1; [|discriminate].
    destruct (out_of_bounds _ _ _); [|discriminate].
    destruct (np_clip u _ _) as [c'|] eqn:E2; [|discriminate].
    destruct e as [[dmin dmax dw uj sm sdm sdM me raw] df cm cM mp st sd tr].
    cbn [d_min d_max d_wrap d_use_jax d_samples d_sdmin d_sdmax d_method d_raw e_dyn
         e_cmin e_cmax e_traj e_state] in *.
    unfold dyn_step in *.
    change (dyn__step w {| d_min := dmin; d_max := dmax; d_wrap := None; d_use_jax := uj;
              d_samples := sm; d_sdmin := sdm; d_sdmax := sdM; d_method := me; d_raw := raw |} tr h st c')
      with (dyn__step w {| d_min := dmin; d_max := dmax; d_wrap := dw; d_use_jax := uj;
              d_samples := sm; d_sdmin := sdm; d_sdmax := sdM; d_method := me; d_raw := raw |} tr h st c').
    destruct (dyn__step _ _ _ _ _ _) as [tr' r]. simpl in *.
    destruct r as [[nx sd']|]; [|discriminate]. simpl in *.
    destruct (np_clip nx dmin dmax) as [m|]; [|discriminate]. cbn [bind] in *.
    change (wrap_angles {| d_min := dmin; d_max := dmax; d_wrap := None; d_use_jax := uj;
              d_samples := sm; d_sdmin := sdm; d_sdmax := sdM; d_method := me; d_raw := raw |} m)
      with (Ok m).
    destruct (wrap_angles _ m) as [q|] eqn:E3; [|discriminate].
    repeat split. exact E3.
  Qed.

  (** One element of a wrapped step compared with the unwrapped step. *)
  Lemma wrap_element (w : world xr) e h a c i cc y :
    o_res (entity_step w e h a) = Ok tt ->
    d_wrap (e_dyn e) = Some c -> bnth c i = Some cc ->
    bnth (e_state (o_entity (entity_step w e h a))) i = Some y ->
    exists x, bnth (e_state (o_entity (entity_step w (set_wrap e None) h a))) i = Some x /\
      y = if xisnan cc then x else wrap1 cc x.
  Proof.
    intros H Hc Hi Hy. destruct (step_set_wrap w e h a c H Hc) as (_ & _ & _ & W).
    pose proof (wrap_angles_at (e_dyn e) _ _ i W) as Q. rewrite Hc, Hi, Hy in Q.
    destruct (bnth (e_state (o_entity (entity_step w (set_wrap e None) h a))) i) as [x|]; [|discriminate]. exists x. split; [reflexivity|].
    injection Q as Q. exact Q.
  Qed.

  Lemma wrap0_finite (w : world xr) e h a c i y :
    o_res (entity_step w e h a) = Ok tt ->
    d_wrap (e_dyn e) = Some c -> bnth c i = Some (Fin 0) ->
    bnth (e_state (o_entity (entity_step w e h a))) i = Some y ->
    exists x, bnth (e_state (o_entity (entity_step w (set_wrap e None) h a))) i = Some x /\
      ((exists rx ry, x = Fin rx /\ y = Fin ry /\ - PI <= ry < PI /\ same_angle rx ry /\
          (- PI <= rx < PI -> ry = rx)) \/
       ((forall r, x <> Fin r) /\ y = NaN)).
  Proof.
    intros H Hc Hi Hy. destruct (wrap_element w e h a c i _ y H Hc Hi Hy) as (x & Hx & E).
    exists x. split; [exact Hx|]. cbn [xisnan] in E.
    destruct x as [rx| | |].
    2-4: right; split; [congruence|]; rewrite E; apply wrap1_nonfin; congruence.
    left. rewrite wrap1_Fin in E. exists rx, (wrapR 0 rx).
    pose proof (wrapR_range 0 rx). split; [reflexivity|]. split; [exact E|]. split; [lra|]. split.
    - destruct (wrapR_turns 0 rx) as [k Hk]. exists k. lra.
    - intros R. rewrite wrapR_id by exact R. lra.
  Qed.

  (** Wrapping twice is wrapping once. *)
  Lemma wrap1_idem x : wrap1 (Fin 0) (wrap1 (Fin 0) x) = wrap1 (Fin 0) x.
  Proof.
    destruct x as [r| | |].
    2-4: match goal with |- wrap1 _ ?e = _ => assert (E : e = NaN) by (apply wrap1_nonfin; congruence) end;
      rewrite E; apply wrap1_nonfin; congruence.
    rewrite wrap1_Fin, wrap1_Fin. f_equal.
    rewrite wrapR_id; [lra|]. pose proof (wrapR_range 0 r). lra.
  Qed.

  Lemma wrap_twice (d : dyn xr) c s s' s'' i :
    d_wrap d = Some c -> bnth c i = Some (Fin 0) ->
    wrap_angles d s = Ok s' -> wrap_angles d s' = Ok s'' -> bnth s'' i = bnth s' i.
  Proof.
    intros Hc Hi H1 H2.
    pose proof (wrap_angles_at d _ _ i H1) as Q1. pose proof (wrap_angles_at d _ _ i H2) as Q2.
    rewrite Hc, Hi in Q1, Q2. rewrite Q2. destruct (bnth s i) as [x|]; rewrite Q1; [|reflexivity].
    simpl (nisnan _). cbn iota. rewrite wrap1_idem. reflexivity.
  Qed.
End W.
