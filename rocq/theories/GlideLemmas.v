(** Closed-form motion of the point-mass integrators. *)
From Coq Require Import String List Bool Arith ZArith Lia Reals Lra.
From Flocq Require Import Core.Core.
From Coquelicot Require Import Coquelicot.
From Verif Require Import PyBase Num Arr BaseModel Spec SpecBase XReal NumOrdLemmas ArrLemmas BaseLemmas
  BaseLemmas2 BaseLemmas3 BaseLemmas4 XTac Cwh SpecRk RkLemmas SpecCwh CwhLemmas Integ SpecInteg IntegLemmas SpecFlow FlowLemmas SpecGlide.
Import List ListNotations.
Local Open Scope R_scope.

Lemma glide_v_derive m c v u t : m <> 0 -> is_derive (glide_v m c v u) t (axis_accel m c (glide_v m c v u t) u).
Proof.
  intros Hm. unfold glide_v, axis_accel. destruct (Req_EM_T c 0) as [->|Hc]; auto_derive; auto; field; auto.
Qed.
Lemma glide_p_derive m c p v u t : m <> 0 -> is_derive (glide_p m c p v u) t (glide_v m c v u t).
Proof.
  intros Hm. unfold glide_v, glide_p. destruct (Req_EM_T c 0) as [->|Hc]; auto_derive; auto; field; auto.
Qed.
Lemma glide_v_0 m c v u : glide_v m c v u 0 = v.
Proof. unfold glide_v. destruct (Req_EM_T c 0); rewrite ?Rmult_0_r, ?exp_0; ring. Qed.
Lemma glide_p_0 m c p v u : glide_p m c p v u 0 = p.
Proof. unfold glide_p, Rdiv. destruct (Req_EM_T c 0); rewrite ?Rmult_0_r, ?exp_0; ring. Qed.
Lemma glide_v_add m c v u a b : m <> 0 -> glide_v m c v u (a + b) = glide_v m c (glide_v m c v u a) u b.
Proof.
  intros Hm. unfold glide_v. destruct (Req_EM_T c 0) as [->|Hc]; [ring|].
  rewrite Rmult_plus_distr_l, exp_plus. ring.
Qed.
Lemma glide_p_add m c p v u a b : m <> 0 ->
  glide_p m c p v u (a + b) = glide_p m c (glide_p m c p v u a) (glide_v m c v u a) u b.
Proof.
  intros Hm. unfold glide_p, glide_v. destruct (Req_EM_T c 0) as [->|Hc]; [field; auto|].
  replace (- c * (a + b)) with (- c * a + - c * b) by ring. rewrite exp_plus. field; auto.
Qed.

(** Uniqueness of the motion of one axis. *)
Lemma glide_axis_unique m c u (p v : R -> R) : m <> 0 ->
  (forall t, is_derive v t (axis_accel m c (v t) u)) -> (forall t, is_derive p t (v t)) ->
  forall t, v t = glide_v m c (v 0) u t /\ p t = glide_p m c (p 0) (v 0) u t.
Proof.
  intros Hm Dv Dp.
  assert (V : forall t, v t = glide_v m c (v 0) u t).
  { intros t. set (g := fun t => (v t - glide_v m c (v 0) u t) * exp (c * t)).
    assert (G : g t = g 0).
    { apply const_of_derive. intros s. unfold g. pose proof (glide_v_derive m c (v 0) u s Hm) as Dg. specialize (Dv s).
      auto_derive; [refine (conj _ (conj _ Logic.I)); eexists; eassumption|]. rwD Dv. rwD Dg. unfold axis_accel. ring. }
    unfold g in G. rewrite glide_v_0 in G. pose proof (exp_pos (c * t)).
    replace ((v 0 - v 0) * exp (c * 0)) with 0 in G by ring. apply Rmult_integral in G. destruct G; lra. }
  intros t. split; [apply V|].
  set (g := fun t => p t - glide_p m c (p 0) (v 0) u t).
  assert (G : g t = g 0).
  { apply const_of_derive. intros s. unfold g. pose proof (glide_p_derive m c (p 0) (v 0) u s Hm) as Dg. specialize (Dp s).
    auto_derive; [refine (conj _ (conj _ Logic.I)); eexists; eassumption|]. rwD Dp. rwD Dg. rewrite (V s) at 1. ring. }
  unfold g in G. rewrite glide_p_0 in G. lra.
Qed.

(** With damping the velocity tends to u/(mc). *)
Lemma glide_limit m c v u t : m <> 0 -> 0 < c -> 
  Rabs (glide_v m c v u t - u / (m * c)) = Rabs (v - u / (m * c)) * exp (- c * t).
Proof.
  intros Hm Hc. unfold glide_v. destruct (Req_EM_T c 0); [lra|].
  pose proof (exp_pos (- c * t)) as P. rewrite <- (Rabs_pos_eq (exp (- c * t))) at 3 by lra. rewrite <- Rabs_mult. f_equal. field. split; auto.
Qed.

Lemma glide_len m c ps vs us t k : length ps = k -> length vs = k -> length us = k -> length (glide m c ps vs us t) = (k + k)%nat.
Proof.
  intros L1 L2 L3. unfold glide. rewrite app_length, !zipw_len; rewrite ?combine_length; lia.
Qed.
Lemma glide_zero m c k : forall ps vs us, length ps = k -> length vs = k -> length us = k -> glide m c ps vs us 0 = ps ++ vs.
Proof.
  induction k as [|k IH]; intros [|p ps] [|v vs] [|u us] L1 L2 L3; try discriminate; [reflexivity|].
  unfold glide in *. cbn [combine zipw app fst snd]. rewrite glide_p_0, glide_v_0. cbn [length] in *.
  specialize (IH ps vs us ltac:(lia) ltac:(lia) ltac:(lia)).
  assert (L : length (zipw (fun p vu => glide_p m c p (fst vu) (snd vu) 0) ps (combine vs us)) = length ps)
    by (rewrite zipw_len; rewrite ?combine_length; lia).
  assert (Q : forall (a b c d : list R), length a = length c -> a ++ b = c ++ d -> a = c /\ b = d).
  { clear. induction a as [|x a IH]; intros b [|y c] d L E; try discriminate; auto. cbn in *. injection E as -> E.
    destruct (IH b c d ltac:(lia) E) as [-> ->]. auto. }
  apply Q in IH; [|exact L]. destruct IH as [-> ->]. reflexivity.
Qed.

Section X.
  Variable r32 : R -> xr.
  Local Hint Extern 0 (Num xr) => exact (XR r32) : typeclass_instances.

  Lemma glide_solves m c mode k samples method d ps vs us : m <> 0 -> offered mode k ->
    integ_dyn (Fin m) (Fin c) mode samples method = Ok d -> length ps = k -> length vs = k -> length us = k ->
    solves d (A1 (map Fin us)) (glide m c ps vs us).
  Proof.
    intros Hm Of E L1 L2 L3 t. rewrite !(glide_len m c ps vs us _ k) by auto.
    assert (La : forall t, length (zipw (fun p vu => glide_p m c p (fst vu) (snd vu) t) ps (combine vs us)) = k)
      by (intros; rewrite zipw_len; rewrite ?combine_length; lia).
    assert (Lb : forall t, length (zipw (fun v u => glide_v m c v u t) vs us) = k) by (intros; rewrite zipw_len; lia).
    exists (zipw (fun v u => glide_v m c v u t) vs us ++ zipw (axis_accel m c) (zipw (fun v u => glide_v m c v u t) vs us) us).
    split; [reflexivity|]. split; [rewrite app_length, !zipw_len; rewrite ?zipw_len; lia|].
    split; [exact (integ_derivative r32 m c mode k samples method d (Fin t) _ _ us Hm Of E (La t) (Lb t) L3)|].
    intros i Hi. unfold glide.
    assert (N1 : forall j, (j < k)%nat -> is_derive (fun t => nth j (zipw (fun p vu => glide_p m c p (fst vu) (snd vu) t) ps (combine vs us)) 0) t
       (nth j (zipw (fun v u => glide_v m c v u t) vs us) 0)).
    { clear - L1 L2 L3 Hm. revert ps vs us L1 L2 L3.
      induction k as [|k IH]; intros [|p ps] [|v vs] [|u us] L1 L2 L3 j Hj; try discriminate; try lia.
      cbn [combine zipw fst snd]. destruct j as [|j]; cbn [nth]; [apply glide_p_derive; auto|]. cbn [length] in *. apply IH; lia. }
    assert (N2 : forall j, (j < k)%nat -> is_derive (fun t => nth j (zipw (fun v u => glide_v m c v u t) vs us) 0) t
       (nth j (zipw (axis_accel m c) (zipw (fun v u => glide_v m c v u t) vs us) us) 0)).
    { clear - L2 L3 Hm. revert vs us L2 L3.
      induction k as [|k IH]; intros [|v vs] [|u us] L2 L3 j Hj; try discriminate; try lia.
      cbn [zipw]. destruct j as [|j]; cbn [nth]; [apply glide_v_derive; auto|]. cbn [length] in *. apply IH; lia. }
    destruct (lt_dec i k) as [Hk|Hk].
    - eapply is_derive_ext; [intros u; symmetry; apply app_nth1; rewrite La; exact Hk|].
      rewrite app_nth1 by (rewrite Lb; exact Hk). apply N1, Hk.
    - eapply is_derive_ext; [intros u; symmetry; apply app_nth2; rewrite La; lia|].
      rewrite app_nth2 by (rewrite Lb; lia). rewrite Lb.
      eapply is_derive_ext; [intros u; rewrite La; reflexivity|]. apply N2. lia.
  Qed.

  Lemma glide_unique m c mode k samples method d sol us ps vs : m <> 0 -> offered mode k ->
    integ_dyn (Fin m) (Fin c) mode samples method = Ok d -> length ps = k -> length vs = k -> length us = k ->
    sol 0 = ps ++ vs -> solves d (A1 (map Fin us)) sol -> forall t, sol t = glide m c ps vs us t.
  Proof.
    intros Hm Of E L1 L2 L3 S0 S t.
    assert (L0 : length (sol 0) = (k + k)%nat) by (rewrite S0, app_length; lia).
    assert (Ln : forall t, length (sol t) = (k + k)%nat) by (intros u; destruct (S u) as (ds & Q & _); congruence).
    assert (D : forall j u, (j < k)%nat -> is_derive (fun u => nth j (sol u) 0) u (nth (k + j) (sol u) 0) /\
      is_derive (fun u => nth (k + j) (sol u) 0) u (axis_accel m c (nth (k + j) (sol u) 0) (nth j us 0))).
    { intros j u Hj. destruct (S u) as (ds & _ & L & C & Q). rewrite L0 in *.
      assert (Sp : sol u = firstn k (sol u) ++ skipn k (sol u)) by (symmetry; apply firstn_skipn).
      assert (F1 : length (firstn k (sol u)) = k) by (rewrite firstn_length, Ln; lia).
      assert (F2 : length (skipn k (sol u)) = k) by (rewrite skipn_length, Ln; lia).
      rewrite Sp in C. rewrite (integ_derivative r32 m c mode k samples method d (Fin u) _ _ us Hm Of E F1 F2 L3 : compute_state_dot _ _ (A1 (map Fin (_ ++ _))) _ = _) in C.
      apply Ok_Fin_inj in C. subst ds.
      assert (Nv : nth j (skipn k (sol u)) 0 = nth (k + j) (sol u) 0).
      { rewrite Sp at 2. rewrite app_nth2 by lia. f_equal. lia. }
      split.
      - specialize (Q j ltac:(lia)). rewrite app_nth1 in Q by lia. rewrite Nv in Q. exact Q.
      - specialize (Q (k + j)%nat ltac:(lia)). rewrite app_nth2 in Q by lia. rewrite F2 in Q.
        replace (k + j - k)%nat with j in Q by lia. evar_last; [exact Q|].
        rewrite <- Nv. clear - F2 L3 Hj. revert us L3 F2 Hj. generalize (skipn k (sol u)) as l.
        intros l. revert l j. induction k as [|k IH]; intros [|v l] j [|x us] L3 F2 Hj; try discriminate; try lia.
        cbn [zipw]. destruct j; cbn [nth]; [reflexivity|]. cbn [length] in *. apply IH; lia. }
    apply (nth_ext _ _ 0 0); [rewrite Ln, (glide_len m c ps vs us t k); auto|]. intros i Hi. rewrite Ln in Hi.
    assert (G : forall j, (j < k)%nat -> nth j (glide m c ps vs us t) 0 = glide_p m c (nth j ps 0) (nth j vs 0) (nth j us 0) t /\
      nth (k + j) (glide m c ps vs us t) 0 = glide_v m c (nth j vs 0) (nth j us 0) t).
    { intros j Hj. unfold glide.
      assert (La : length (zipw (fun p vu => glide_p m c p (fst vu) (snd vu) t) ps (combine vs us)) = k)
        by (rewrite zipw_len; rewrite ?combine_length; lia).
      rewrite app_nth1 by lia. rewrite app_nth2 by lia. rewrite La. replace (k + j - k)%nat with j by lia.
      clear - L1 L2 L3 Hj. revert ps vs us j L1 L2 L3 Hj.
      induction k as [|k IH]; intros [|p ps] [|v vs] [|u us] j L1 L2 L3 Hj; try discriminate; try lia.
      cbn [combine zipw fst snd]. destruct j as [|j]; cbn [nth]; [auto|]. cbn [length] in *. apply IH; lia. }
    assert (A : forall j, (j < k)%nat -> nth j (sol t) 0 = nth j (glide m c ps vs us t) 0 /\ nth (k + j) (sol t) 0 = nth (k + j) (glide m c ps vs us t) 0).
    { intros j Hj. destruct (G j Hj) as (-> & ->).
      destruct (glide_axis_unique m c (nth j us 0) (fun u => nth j (sol u) 0) (fun u => nth (k + j) (sol u) 0) Hm
        (fun u => proj2 (D j u Hj)) (fun u => proj1 (D j u Hj)) t) as (Qv & Qp).
      cbv beta in Qv, Qp. rewrite Qv, Qp, S0. rewrite app_nth1 by lia. rewrite app_nth2 by lia. rewrite L1.
      replace (k + j - k)%nat with j by lia. auto. }
    destruct (lt_dec i k) as [Hk|Hk]; [apply A, Hk|]. replace i with (k + (i - k))%nat by lia. apply A. lia.
  Qed.

  (** One step along an integral curve, for any dynamics without limits. *)
  Lemma exact_unlimited (w : world xr) e h l l' phi :
    d_min (e_dyn e) = no_min -> d_max (e_dyn e) = no_max -> d_wrap (e_dyn e) = None -> d_method (e_dyn e) = "RK45"%string ->
    fits (e_cmin e) (A1 l) -> fits (e_cmax e) (A1 l) -> np_clip (A1 l) (e_cmin e) (e_cmax e) = Ok (A1 l') ->
    exact_on w (fun t x => compute_state_dot (e_dyn e) t x (A1 l')) ->
    integral_curve (fun t x => compute_state_dot (e_dyn e) t x (A1 l')) phi ->
    e_state e = A1 (map Fin (phi 0)) ->
    let o := entity_step w e (Fin h) (AArr (A1 l)) in
    o_res o = Ok tt /\ e_state (o_entity o) = A1 (map Fin (phi h)).
  Proof.
    intros H1 H2 H5 H6 F1 F2 Cl X Ic Es o. subst o.
    unfold entity_step. cbn [decode_action].
    destruct (out_of_bounds_spec (A1 l) (e_cmin e) (e_cmax e) F1 F2) as (b & Eb & _).
    rewrite Eb, Cl. unfold dyn_step, dyn__step. rewrite H6. cbn [String.eqb Ascii.eqb Bool.eqb].
    rewrite Es. set (te := if (0 <? _)%Z then _ else _).
    destruct (X h te phi Ic) as (sol & rows & Q1 & Q2).
    { intros ts Ets. unfold te in Ets. destruct (0 <? d_samples (e_dyn e))%Z eqn:Sa; [|discriminate].
      injection Ets as <-. apply Z.ltb_lt in Sa. apply (t_eval_last r32). lia. }
    rewrite Q1, Q2. destruct (rows ++ [map Fin (phi h)])%list as [|r0 rs] eqn:Er; [destruct rows; discriminate|].
    rewrite <- Er. unfold last_row. rewrite rev_app_distr. cbn [rev app bind].
    destruct (Ic h) as (ds & _ & _ & C & _). rewrite C. cbn [bind].
    rewrite H1, H2, clip_none. cbn [bind]. unfold wrap_angles. rewrite H5. cbn [bind]. split; reflexivity.
  Qed.

  Lemma glide_step (w : world xr) m c mode k samples e h ps vs us : m <> 0 -> offered mode k ->
    plain_integ r32 m c mode k samples "RK45" e ->
    (forall us', length us' = k -> exact_on w (fun t x => compute_state_dot (e_dyn e) t x (A1 (map Fin us')))) ->
    length ps = k -> length vs = k -> length us = k -> e_state e = point_state ps vs ->
    let o := entity_step w e (Fin h) (AArr (A1 (map Fin us))) in
    o_res o = Ok tt /\ e_state (o_entity o) = A1 (map Fin (glide m c ps vs (map (clipR (-1) 1) us) h)).
  Proof.
    intros Hm Of (E & C1 & C2 & _) X L1 L2 L3 Es.
    destruct (integ_ok r32 m c mode k samples "RK45" Hm Of) as (d' & E' & H1 & H2 & H3 & H4 & H5 & H6 & _).
    assert (d' = e_dyn e) by congruence. subst d'.
    assert (L3' : length (map (clipR (-1) 1) us) = k) by (rewrite map_length; auto).
    apply (exact_unlimited w e h (map Fin us) (map Fin (map (clipR (-1) 1) us)) (glide m c ps vs (map (clipR (-1) 1) us))); auto.
    - rewrite C1. exact Logic.I.
    - rewrite C2. exact Logic.I.
    - rewrite C1, C2. change (@nZ xr (XR r32) (-1)) with (Fin (-1/1)). change (@n1 xr (XR r32)) with (Fin (1/1)).
      replace (-1/1) with (-1) by field. replace (1/1) with 1 by field. apply np_clip_scalar.
    - intros t. destruct (glide_solves m c mode k samples "RK45" (e_dyn e) ps vs (map (clipR (-1) 1) us) Hm Of E L1 L2 L3' t) as (ds & Q).
      exists ds. exact Q.
    - rewrite (glide_zero m c k) by auto. exact Es.
  Qed.

  (** Runs: one force throughout, any steps. *)
  Lemma zipw_ext {A B C} (f g : A -> B -> C) : (forall a b, f a b = g a b) -> forall l m, zipw f l m = zipw g l m.
  Proof. intros H. induction l; intros [|b m]; cbn; auto. rewrite H, IHl. reflexivity. Qed.
  Lemma glide_split m c k a : forall ps vs us, length ps = k -> length vs = k -> length us = k ->
    exists ps' vs', glide m c ps vs us a = ps' ++ vs' /\ length ps' = k /\ length vs' = k /\
    (m <> 0 -> forall b, glide m c ps vs us (a + b) = glide m c ps' vs' us b).
  Proof.
    intros ps vs us L1 L2 L3.
    exists (zipw (fun p vu => glide_p m c p (fst vu) (snd vu) a) ps (combine vs us)), (zipw (fun v u => glide_v m c v u a) vs us).
    split; [reflexivity|]. split; [rewrite zipw_len; rewrite ?combine_length; lia|]. split; [rewrite zipw_len; lia|].
    intros Hm b. unfold glide. f_equal.
    - revert ps vs us L1 L2 L3. induction k as [|k IH]; intros [|p ps] [|v vs] [|u us] L1 L2 L3; try discriminate; [reflexivity|].
      cbn [combine zipw fst snd]. f_equal; [apply glide_p_add; auto|]. cbn [length] in *. apply IH; lia.
    - revert vs us L2 L3. clear L1. induction k as [|k IH]; intros [|v vs] [|u us] L2 L3; try discriminate; [reflexivity|].
      cbn [zipw]. f_equal; [apply glide_v_add; auto|]. cbn [length] in *. apply IH; lia.
  Qed.

  Lemma glide_run (w : world xr) m c mode k samples us : m <> 0 -> offered mode k -> length us = k ->
    forall hs e ps vs, plain_integ r32 m c mode k samples "RK45" e ->
    (forall us', length us' = k -> exact_on w (fun t x => compute_state_dot (e_dyn e) t x (A1 (map Fin us')))) ->
    length ps = k -> length vs = k -> e_state e = point_state ps vs ->
    exists e', run w e (thrusts (map (fun h => (h, us)) hs)) = Ok e' /\
      e_state e' = A1 (map Fin (glide m c ps vs (map (clipR (-1) 1) us) (fold_right Rplus 0 hs))).
  Proof.
    intros Hm Of L3. assert (L3' : length (map (clipR (-1) 1) us) = k) by (rewrite map_length; auto).
    induction hs as [|h hs IH]; intros e ps vs Pl X L1 L2 Es.
    - exists e. split; [reflexivity|]. cbn [fold_right]. rewrite (glide_zero m c k) by auto. exact Es.
    - destruct (glide_step w m c mode k samples e h ps vs us Hm Of Pl X L1 L2 L3 Es) as (O & Q).
      pose proof (entity_step_config w e (Fin h) (AArr (A1 (map Fin us)))) as (K1 & K2 & K3 & K4 & _).
      unfold thrusts. rewrite !map_cons. cbn [fst snd run]. set (o := entity_step w e (Fin h) (AArr (A1 (map Fin us)))) in *.
      rewrite O. cbn [bind fold_right].
      destruct (glide_split m c k h ps vs (map (clipR (-1) 1) us) L1 L2 L3') as (ps' & vs' & G1 & G2 & G3 & G4).
      rewrite G4 by auto. rewrite G1 in Q. apply IH; auto.
      + destruct Pl as (P1 & P2 & P3 & P4). unfold plain_integ. rewrite K1, K2, K3, K4. auto.
      + rewrite K1. exact X.
  Qed.
End X.

(** A solver without error for these equations: it evaluates the closed form, reading the
    force off the derivative at the origin. *)
Definition glide_world (m c : R) (k : nat) : world xr :=
  {| w_solve_ivp := fun f h s te =>
       match f (Fin 0) (A1 (map Fin (repeat 0 (k + k)))), s with
       | Ok (A1 a), A1 l =>
           let us := map (Rmult m) (map real_of (skipn k a)) in
           let x := map real_of l in
           Ok {| sol_t := [h]; sol_y := [map Fin (glide m c (firstn k x) (skipn k x) us (real_of h))]; sol_success := true |}
       | _, _ => Err ValueError
       end;
     w_odeint := fun _ _ _ => Err ValueError;
     w_jax := false |}.

Section Y.
  Variable r32 : R -> xr.
  Local Hint Extern 0 (Num xr) => exact (XR r32) : typeclass_instances.
  Lemma glide_world_exact m c mode k samples method d us : m <> 0 -> offered mode k ->
    integ_dyn (Fin m) (Fin c) mode samples method = Ok d -> length us = k ->
    exact_on (glide_world m c k) (fun t x => compute_state_dot d t x (A1 (map Fin us))).
  Proof.
    intros Hm Of E L3 h te phi Ic _.
    assert (S : solves d (A1 (map Fin us)) phi) by (intros t; destruct (Ic t) as (ds & Q); exists ds; exact Q).
    assert (L0 : length (phi 0) = (k + k)%nat).
    { destruct (Ic 0) as (ds & _ & _ & C & _). revert C. generalize (phi 0) as l. intros l C. clear - Of E C L3 Hm.
      destruct Of as [[-> ->]|[[-> ->]|[-> ->]]]; unfold integ_dyn, generate_dynamics_matrices, pydiv, linear_dyn in E; revert E; cbn;
        rewrite (Req_bool_false m (0/1)) by lra; cbn; rewrite (Req_bool_false m 0) by lra; intros E; injection E as <-;
        revert C; unfold compute_state_dot, affine_raw; cbn [d_raw].
      - destruct l as [|? [|? [|? l]]]; try reflexivity; cbn; discriminate.
      - destruct l as [|? [|? [|? [|? [|? l]]]]]; try reflexivity; cbn; discriminate.
      - destruct l as [|? [|? [|? [|? [|? [|? [|? l]]]]]]]; try reflexivity; cbn; discriminate. }
    cbn [w_solve_ivp glide_world].
    assert (Z : repeat 0 (k + k) = repeat 0 k ++ repeat 0 k) by apply repeat_app.
    rewrite Z. rewrite (integ_derivative r32 m c mode k samples method d (Fin 0) (repeat 0 k) (repeat 0 k) us Hm Of E
      (repeat_length _ _) (repeat_length _ _) L3 : compute_state_dot _ _ (A1 (map Fin (_ ++ _))) _ = _).
    eexists _, []. split; [reflexivity|]. cbn [sol_y app]. do 2 f_equal. cbn [real_of].
    rewrite real_of_Fin. set (x := phi 0) in *.
    assert (U : map (Rmult m) (map real_of (skipn k (map Fin (repeat 0 k ++ zipw (axis_accel m c) (repeat 0 k) us)))) = us).
    { rewrite map_app, skipn_app, map_length, repeat_length, Nat.sub_diag. cbn [skipn].
      rewrite skipn_all2 by (rewrite map_length, repeat_length; lia). cbn [app]. rewrite real_of_Fin.
      clear - L3 Hm. revert us L3. induction k as [|k IH]; intros [|u us] L3; try discriminate; [reflexivity|].
      cbn [repeat zipw map]. f_equal; [unfold axis_accel; field; auto|]. apply IH. cbn in L3; lia. }
    rewrite U. symmetry.
    apply (glide_unique r32 m c mode k samples method d phi us); auto.
    - rewrite firstn_length. lia.
    - rewrite skipn_length. lia.
    - symmetry. apply firstn_skipn.
  Qed.
  Lemma glide_world_exists m c mode k samples method d : m <> 0 -> offered mode k ->
    integ_dyn (Fin m) (Fin c) mode samples method = Ok d ->
    exists w, forall us, length us = k -> exact_on w (fun t x => compute_state_dot d t x (A1 (map Fin us))).
  Proof. intros Hm Of E. exists (glide_world m c k). intros us L. eapply glide_world_exact; eauto. Qed.
End Y.

Local Hint Extern 0 (Num xr) => exact (XR Fin) : typeclass_instances.
Lemma C93_ex : exists e e',
  integrator1d_body (N := XR Fin) (Fin 2) (Fin 0) 0 "RK45" (Fin 0) (Fin 0) = Ok e /\
  run (N := XR Fin) (glide_world 2 0 1) e (thrusts [(1, [5]); (3, [5])]) = Ok e' /\
  e_state e' = A1 (map Fin [4; 2]).
Proof.
  destruct (integ_ok Fin 2 0 "1d" 1 0 "RK45" ltac:(lra) ltac:(left; auto)) as (d & E & _).
  unfold integrator1d_body. rewrite E. cbn [bind].
  eexists. 
  match goal with |- exists e', Ok ?x = Ok _ /\ _ => set (e := x) end.
  destruct (glide_run Fin (glide_world 2 0 1) 2 0 "1d" 1 0 [5] ltac:(lra) ltac:(left; auto) eq_refl [1; 3] e [0] [0])
    as (e' & R1 & R2).
  - unfold plain_integ. cbn. auto.
  - intros us' L. exact (glide_world_exact Fin 2 0 "1d" 1 0 "RK45" d us' ltac:(lra) ltac:(left; auto) E L).
  - reflexivity.
  - reflexivity.
  - reflexivity.
  - exists e'. split; [reflexivity|]. split; [exact R1|]. rewrite R2. unfold glide, glide_p, glide_v, clipR. cbn [map combine zipw fst snd app fold_right].
    destruct (Req_EM_T 0 0); [|lra]. fin_list.
    all: rewrite (Rmax_left 5 (-1)), (Rmin_right 5 1) by lra; field.
Qed.
