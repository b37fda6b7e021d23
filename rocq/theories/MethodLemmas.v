(** Comparison of the integration methods; NaN commands. *)
From Coq Require Import String List Bool Arith ZArith Lia Reals Lra.
From Flocq Require Import Core.Core.
From Verif Require Import PyBase Num Arr BaseModel Spec SpecBase SpecWrap XReal NumOrdLemmas ArrLemmas BaseLemmas
  BaseLemmas2 BaseLemmas3 BaseLemmas4 XTac WrapLemmas SpecRk SpecCwh RkLemmas Cwh CwhLemmas LimLemmas
  Rot2d Rot2dLemmas Sun SpecMethod.
Import List ListNotations.
Local Open Scope R_scope.

(** ** One-step methods only look at finite points *)
Section E.
  Variables f f' : xr -> arr xr -> res (arr xr).
  Variable h : R.
  Variable s0 : list R.
  Hypothesis Rf : regular f (length s0).
  Hypothesis Ag : forall t q, length q = length s0 -> f' (Fin t) (A1 (map Fin q)) = f (Fin t) (A1 (map Fin q)).

  Lemma erk_slopes_ext st : forall ks, Forall (slope f s0) ks ->
    erk_slopes f' h (A1 (map Fin s0)) st ks = erk_slopes f h (A1 (map Fin s0)) st ks.
  Proof.
    induction st as [|[c a] st IH]; intros ks S; [reflexivity|]. cbn [erk_slopes].
    destruct (erk_sum_fin f h s0 a ks s0 eq_refl S) as (q & E & L). rewrite E. cbn [bind].
    rewrite Ag by auto. destruct (Rf (c * h) q L) as (d & Ld & Ed). rewrite Ed. cbn [bind].
    apply IH. apply Forall_app. split; auto. constructor; auto. exists (c * h), q, d. auto.
  Qed.
  Lemma erk_step_ext tb : erk_step f' h (A1 (map Fin s0)) tb = erk_step f h (A1 (map Fin s0)) tb.
  Proof. unfold erk_step. rewrite erk_slopes_ext by constructor. reflexivity. Qed.
End E.

Lemma comb_len f s tau q : regular f (length s) -> rk_comb f s tau q -> length q = length s.
Proof.
  intros Rg K. remember (length s) as n eqn:Hn. induction K as [|tau s1 c t q d K IH Lq Ed]; auto.
  rewrite vaxpy_len. destruct (Rg t q ltac:(congruence)) as (d' & Ld & E').
  rewrite E' in Ed. apply Ok_Fin_inj in Ed. subst d'. lia.
Qed.

Lemma erk_same_method r32 tb : consistent tb -> same_method r32 (erk_world tb).
Proof.
  intros C f g h s Rf Ag.
  destruct (erk_step_comb f h s Rf tb C) as (l & E & K).
  pose proof (comb_len _ _ _ _ Rf K) as L.
  assert (G : forall x, erk_step (fun t x => g x t) x (A1 (map Fin s)) tb = erk_step f x (A1 (map Fin s)) tb).
  { intros x. apply erk_step_ext; auto. }
  assert (M : forall t0 ts, exists rows, mapM (fun t => erk_step (fun t x => g x t) (real_of t - t0) (A1 (map Fin s)) tb) ts = Ok rows).
  { intros t0. induction ts as [|t ts [rows IH]]; [exists []; reflexivity|]. cbn [mapM].
    rewrite G. destruct (erk_step_comb f (real_of t - t0) s Rf tb C) as (q & E' & _). rewrite E'. cbn [bind]. rewrite IH. eexists; reflexivity. }
  set (J := jax_times (N := XR r32) (Fin h)).
  assert (Hj : exists ts, J = ts ++ [Fin h] /\ hd (Fin 0) J = Fin (0 / 1)).
  { exists (firstn 10 J). split; reflexivity. }
  destruct Hj as (ts & Hj & Hd).
  assert (Ma : forall {A B} (k : A -> res B) l1 x r1 r2, mapM k l1 = Ok r1 -> k x = Ok r2 -> mapM k (l1 ++ [x]) = Ok (r1 ++ [r2])).
  { clear. intros A B k. induction l1 as [|y l1 IH]; intros x r1 r2 H1 H2; cbn in *.
    - injection H1 as <-. rewrite H2. reflexivity.
    - destruct (k y) as [v|]; [|discriminate]. cbn [bind] in *. destruct (mapM k l1) as [r|] eqn:E; [|discriminate]. cbn [bind] in H1.
      injection H1 as <-. rewrite (IH x r r2 eq_refl H2). reflexivity. }
  cbn [erk_world w_solve_ivp w_odeint]. rewrite Hd. cbn [real_of].
  destruct (M (0 / 1) ts) as (rows' & Mr).
  assert (Lr : erk_step (fun t x => g x t) (real_of (Fin h) - 0 / 1) (A1 (map Fin s)) tb = Ok (map Fin l)).
  { rewrite G. cbn [real_of]. replace (h - 0 / 1) with h by lra. exact E. }
  cbv zeta. cbn [mapM real_of]. rewrite E. cbn [bind].
  eexists _, [], rows', l. split; [exact L|]. split; [reflexivity|]. split; [reflexivity|].
  rewrite Hj. exact (Ma _ _ _ ts (Fin h) rows' (map Fin l) Mr Lr).
Qed.

Section X.
  Variable r32 : R -> xr.
  Local Hint Extern 0 (Num xr) => exact (XR r32) : typeclass_instances.

  Lemma methods_agree (w : world xr) (e : entity xr) h s l : same_method r32 w ->
    d_min (e_dyn e) = no_min -> d_max (e_dyn e) = no_max -> d_sdmin (e_dyn e) = no_min -> d_sdmax (e_dyn e) = no_max ->
    d_use_jax (e_dyn e) = true -> (d_samples (e_dyn e) <= 0)%Z -> e_state e = A1 (map Fin s) ->
    (forall c, np_clip (A1 l) (e_cmin e) (e_cmax e) = Ok c -> regular (fun t x => d_raw (e_dyn e) t x c) (length s)) ->
    let o1 := entity_step w (entity_with_method e "RK45") (Fin h) (AArr (A1 l)) in
    let o2 := entity_step w (entity_with_method e "RK45_JAX") (Fin h) (AArr (A1 l)) in
    o_res o1 = o_res o2 /\ e_state (o_entity o1) = e_state (o_entity o2) /\ e_sdot (o_entity o1) = e_sdot (o_entity o2).
  Proof.
    intros SM M1 M2 D1 D2 J Sa Es Rg o1 o2. subst o1 o2. unfold entity_step.
    cbn [decode_action entity_with_method e_cmin e_cmax e_dyn e_traj e_state].
    destruct (out_of_bounds (A1 l) (e_cmin e) (e_cmax e)) as [b|]; [|auto].
    destruct (np_clip (A1 l) (e_cmin e) (e_cmax e)) as [c|]; [|auto].
    specialize (Rg c eq_refl).
    assert (Cs : forall m t q, length q = length s -> exists r, length r = length s /\
      d_raw (e_dyn e) (Fin t) (A1 (map Fin q)) c = Ok (A1 (map Fin r)) /\
      compute_state_dot (with_method (e_dyn e) m) (Fin t) (A1 (map Fin q)) c = Ok (A1 (map Fin r))).
    { intros m t q L. destruct (Rg t q L) as (r & Lr & Er). exists r. split; [auto|]. split; [exact Er|].
      apply (csd_unlimited r32); auto. congruence. }
    unfold dyn_step, dyn__step. cbn [d_method with_method d_samples d_use_jax String.eqb Ascii.eqb Bool.eqb negb].
    rewrite J. cbn [negb]. rewrite (proj2 (Z.ltb_ge _ _) Sa), (proj2 (Z.leb_le _ _) Sa). cbn [py_assert bind]. rewrite Es.
    destruct (SM (fun t x => compute_state_dot (with_method (e_dyn e) "RK45") t x c)
                 (fun x t => compute_state_dot_jax (with_method (e_dyn e) "RK45_JAX") x t c) h s)
      as (sol & rows & rows' & q & Lq & E1 & E2 & E3).
    { intros t q L. destruct (Cs "RK45"%string t q L) as (r & Lr & _ & Er). exists r. auto. }
    { intros t q L. destruct (Cs "RK45"%string t q L) as (r & Lr & Er & Er'). rewrite Er'. exact Er. }
    rewrite E1, E2, E3. cbn [bind].
    destruct (rows ++ [map Fin q]) as [|r0 rs] eqn:Er; [destruct rows; discriminate|]. rewrite <- Er.
    unfold last_row. rewrite (rev_app_distr rows), (rev_app_distr rows'). cbn [rev app bind].
    destruct (Cs "RK45"%string h q Lq) as (r1 & _ & R1 & Q1).
    change (compute_state_dot (with_method (e_dyn e) "RK45_JAX")) with (compute_state_dot (with_method (e_dyn e) "RK45")).
    rewrite Q1. cbn [bind d_min d_max with_method].
    rewrite M1, M2, (clip_none r32). cbn [bind].
    change (wrap_angles (with_method (e_dyn e) "RK45_JAX")) with (wrap_angles (with_method (e_dyn e) "RK45")).
    destruct (wrap_angles (with_method (e_dyn e) "RK45") (A1 (map Fin q))); auto.
  Qed.
End X.

(** ** The planar spacecraft with the midpoint method *)
Lemma midpoint_consistent : consistent midpoint.
Proof. split; [reflexivity|]. cbn. lra. Qed.

Section W.
  Local Hint Extern 0 (Num xr) => exact (XR Fin) : typeclass_instances.

  (** One step of the midpoint method of size one from heading 0 at rate 1, commanded 1. *)
  Lemma midpoint_six (f : xr -> arr xr -> res (arr xr)) (k1 k2 : list R) (s : list R) :
    f (Fin (0 * 1)) (A1 (map Fin s)) = Ok (A1 (map Fin k1)) -> length k1 = length s -> length k2 = length s ->
    f (Fin (1 / 2 * 1)) (A1 (map Fin (zipw (fun a b => a + 1 * (1 / 2) * b) s k1))) = Ok (A1 (map Fin k2)) ->
    erk_step f 1 (A1 (map Fin s)) midpoint =
      Ok (map Fin (zipw (fun a b => a + 1 * 1 * b) (zipw (fun a b => a + 1 * 0 * b) s k1) k2)).
  Proof.
    intros E1 L1 L2 E2.
    assert (B : forall c l k, length k = length l ->
      bmap2 xadd (A1 (map Fin l)) (amap (xmul (Fin c)) (A1 (map Fin k))) = Ok (A1 (map Fin (zipw (fun a b => a + c * b) l k)))).
    { intros c l k L. cbn. rewrite !map_length, L, Nat.eqb_refl. do 2 f_equal. clear -L.
      revert k L. induction l as [|x l IH]; intros [|y k] L; try discriminate; auto. cbn. f_equal. apply IH. cbn in L; lia. }
    unfold erk_step. cbn [midpoint tb_stages tb_weights erk_slopes erk_sum bind app]. rewrite E1. cbn [bind app].
    cbn [erk_slopes erk_sum bind app]. rewrite B by auto. cbn [bind]. rewrite E2. cbn [bind app erk_slopes erk_sum].
    rewrite B by auto. cbn [bind]. rewrite B; [reflexivity|].
    rewrite L2. symmetry. apply zipw_length. congruence.
  Qed.

  Ltac kd := try field; unfold clipR, stopR, Rmin, Rmax;
    repeat match goal with |- context [Rle_dec ?a ?b] => destruct (Rle_dec a b); try lra end.
  Lemma methods_differ : exists (e e1 e2 : entity xr) th1 th2,
    let w := erk_world midpoint in let a := AArr (A1 (map Fin [0; 0; 1])) in
    rot2d_spacecraft w (Fin 1) (Fin 1) (Fin 1) (Fin 1) (Fin 1) (Fin 1) (Fin 1) (Fin 0) 0 "RK45" true
      (Fin 0) (Fin 0) (Fin 0) (Fin 0) (Fin 0) (Fin 1) = Ok e /\
    run w (entity_with_method e "RK45") [(Fin 1, a)] = Ok e1 /\
    run w (entity_with_method e "RK45_JAX") [(Fin 1, a)] = Ok e2 /\
    bnth (e_state e1) 2 = Some (Fin th1) /\ bnth (e_state e2) 2 = Some (Fin th2) /\ th1 = 1 /\ th2 = 3 / 2.
  Proof.
    destruct (rot2d_spacecraft (erk_world midpoint) (Fin 1) (Fin 1) (Fin 1) (Fin 1) (Fin 1) (Fin 1) (Fin 1) (Fin 0) 0 "RK45" true
      (Fin 0) (Fin 0) (Fin 0) (Fin 0) (Fin 0) (Fin 1)) as [e|] eqn:E.
    2:{ exfalso. unfold rot2d_spacecraft, rot2d_limit, rot2d_dyn, generate_cwh_matrices, pydiv in E. revert E. xstep. discriminate. }
    exists e.
    destruct (rot2d_limits (fun x => x) _ 1 1 1 _ _ _ _ _ _ _ _ _ _ _ _ _ _ _ Rlt_0_1 E) as (D & C1 & C2).
    destruct (rot2d_craft_inv _ _ _ _ _ _ _ _ _ _ _ _ _ _ _ _ _ _ _ E) as (_ & _ & _ & _ & _ & _ & _ & _ & S0 & _).
    cbn in S0. replace (Rmin 1 (1 * 1 / 1)) with 1 in * by (unfold Rmin; destruct (Rle_dec 1 (1 * 1 / 1)); lra).
    destruct (rot2d_dyn_inv _ _ _ _ _ _ _ _ _ _ D) as (D1 & D2 & _ & _ & D5 & D6 & D7 & D8 & _).
    pose proof (rot2d_csd (fun x => x) _ 1 1 1 _ _ _ _ _ _ R1_neq_R0 R1_neq_R0 D) as Q. 
    pose proof (rot2d_raw (fun x => x) _ 1 1 (Fin 1) _ _ _ _ _ _ R1_neq_R0 R1_neq_R0 D) as Q'. 
    cbn [rot2d_rate] in Q.
    assert (K1 : forall x, clipR (-1) 1 x = x \/ x < -1 \/ 1 < x).
    { intros x. destruct (Rle_dec (-1) x), (Rle_dec x 1); try lra. left. apply clipR_id; lra. }
    assert (NC : np_clip (A1 (map Fin [0; 0; 1])) (e_cmin e) (e_cmax e) = Ok (A1 (map Fin [0; 0; 1]))).
    { rewrite C1, C2. rewrite np_clip_list by reflexivity. cbn [expand clip_list map length]. rewrite !clip1_Fin.
      do 2 f_equal. cbn [map]. fin_list; apply clipR_id; lra. }
    assert (OB : exists b, out_of_bounds (A1 (map Fin [0; 0; 1])) (e_cmin e) (e_cmax e) = Ok b).
    { rewrite C1, C2. unfold out_of_bounds. cbn [map bmap2 zipw length Nat.eqb bind]. destruct (any _); eexists; reflexivity. }
    destruct OB as (b & OB).
    assert (SS : forall m th wz wz2, 0 <= th < 2 -> clipR (- (1)) 1 wz = wz2 ->
      (s' <- np_clip (A1 (map Fin [0; 0; th; 0; 0; wz])) (d_min (with_method (e_dyn e) m)) (d_max (with_method (e_dyn e) m)) ;;
       wrap_angles (with_method (e_dyn e) m) s') = Ok (A1 (map Fin [0; 0; th; 0; 0; wz2]))).
    { intros m th wz wz2 Hth Hw. cbn [with_method d_min d_max]. rewrite D1, D2.
      rewrite np_clip_list by reflexivity. cbn [bind expand clip_list map length].
      erewrite wrap_angles_list; [|exact D5|reflexivity].
      change (@nnan xr _) with NaN.
      change (@nninf xr _) with NInf. change (@npinf xr _) with PInf. cbn [nneg XR xneg].
      rewrite !clip1_none, clip1_Fin. cbn [wrap_list nisnan XR xisnan n0].
      rewrite n0_Fin, wrap1_Fin. rewrite wrapR_id by (pose proof PI2_1; lra). rewrite Rplus_0_r, Hw. reflexivity. }
    assert (R1 : exists e1, run (erk_world midpoint) (entity_with_method e "RK45") [(Fin 1, AArr (A1 (map Fin [0; 0; 1])))] = Ok e1 /\
      e_state e1 = A1 (map Fin [0; 0; 1; 0; 0; 1])).
    { unfold run, entity_step. cbn [decode_action entity_with_method e_cmin e_cmax e_dyn e_traj e_state fst snd].
      rewrite OB, NC. unfold dyn_step, dyn__step.
      cbn [d_method with_method d_samples d_use_jax String.eqb Ascii.eqb Bool.eqb negb]. rewrite D6. cbn [Z.ltb Z.leb Z.compare].
      cbn [erk_world w_solve_ivp mapM real_of]. rewrite S0.
      change [Fin 0; Fin 0; Fin 0; Fin 0; Fin 0; Fin 1] with (map Fin [0; 0; 0; 0; 0; 1]).
      rewrite (midpoint_six _ [0; 0; 1; 0; 0; 0] [0; 0; 1; 0; 0; 0]); [|..]; try reflexivity.
      2:{ etransitivity; [apply Q|]. do 2 f_equal. cbn [map]. fin_list; kd. }
      2:{ cbn [zipw]. etransitivity; [apply Q|]. do 2 f_equal. cbn [map]. fin_list; kd. }
      cbn [bind sol_y zipw].
      match goal with |- context [last_row [map Fin ?l]] => replace l with [0; 0; 1; 0; 0; 1] by (repeat f_equal; lra) end.
      cbn [last_row rev app bind].
      change (compute_state_dot (with_method (e_dyn e) "RK45")) with (compute_state_dot (e_dyn e)).
      rewrite Q. cbn [bind].
      pose proof (SS "RK45"%string 1 1 1 ltac:(lra) ltac:(apply clipR_id; lra)) as S1. revert S1.
      destruct (np_clip (A1 (map Fin [0; 0; 1; 0; 0; 1])) (d_min (with_method (e_dyn e) "RK45")) (d_max (with_method (e_dyn e) "RK45")))
        as [c|]; [|discriminate]. cbn [bind]. intros ->. cbn [bind o_res o_entity].
      eexists. split; [reflexivity|]. reflexivity. }
    assert (R2 : exists e2, run (erk_world midpoint) (entity_with_method e "RK45_JAX") [(Fin 1, AArr (A1 (map Fin [0; 0; 1])))] = Ok e2 /\
      e_state e2 = A1 (map Fin [0; 0; 3 / 2; 0; 0; 1])).
    { unfold run, entity_step. cbn [decode_action entity_with_method e_cmin e_cmax e_dyn e_traj e_state fst snd].
      rewrite OB, NC. unfold dyn_step, dyn__step.
      cbn [d_method with_method d_samples d_use_jax String.eqb Ascii.eqb Bool.eqb negb]. rewrite D6, D8.
      cbn [Z.ltb Z.leb Z.compare negb py_assert bind]. rewrite S0.
      change [Fin 0; Fin 0; Fin 0; Fin 0; Fin 0; Fin 1] with (map Fin [0; 0; 0; 0; 0; 1]).
      destruct (erk_same_method Fin midpoint midpoint_consistent (fun t x => d_raw (e_dyn e) t x (A1 (map Fin [0; 0; 1])))
        (fun x t => compute_state_dot_jax (with_method (e_dyn e) "RK45_JAX") x t (A1 (map Fin [0; 0; 1]))) 1 [0; 0; 0; 0; 0; 1])
        as (sol & rows & rows' & l & Ll & W1 & W2 & W3); [|reflexivity|].
      { intros t q L. do 7 (destruct q as [|? q]; try discriminate L). eexists. split; [|apply Q']. reflexivity. }
      rewrite W3. cbn [bind].
      cbn [erk_world w_solve_ivp mapM real_of] in W1.
      rewrite (midpoint_six _ [0; 0; 1; 0; 0; 1] [0; 0; 3 / 2; 0; 0; 1]) in W1; [|..]; try reflexivity.
      2:{ etransitivity; [apply Q'|]. do 2 f_equal. cbn [map]. fin_list; kd. }
      2:{ cbn [zipw]. etransitivity; [apply Q'|]. do 2 f_equal. cbn [map]. fin_list; kd. }
      cbn [bind] in W1. injection W1 as <-. cbn [sol_y] in W2.
      apply (app_inj_tail [] rows) in W2. destruct W2 as (_ & W2). rewrite <- W2. clear W2.
      unfold last_row. rewrite rev_app_distr. cbn [rev app bind zipw].
      match goal with |- context [compute_state_dot _ (Fin 1) (A1 ?l)] =>
        replace l with (map Fin [0; 0; 3 / 2; 0; 0; 2]) by (cbn [map]; fin_list; lra) end.
      change (compute_state_dot (with_method (e_dyn e) "RK45_JAX")) with (compute_state_dot (e_dyn e)).
      rewrite Q. cbn [bind].
      pose proof (SS "RK45_JAX"%string (3/2) 2 1 ltac:(lra) ltac:(kd)) as S1. revert S1.
      destruct (np_clip (A1 (map Fin [0; 0; 3 / 2; 0; 0; 2])) (d_min (with_method (e_dyn e) "RK45_JAX")) (d_max (with_method (e_dyn e) "RK45_JAX")))
        as [c|]; [|discriminate]. cbn [bind]. intros ->. cbn [bind o_res o_entity].
      eexists. split; [reflexivity|]. reflexivity. }
    destruct R1 as (e1 & R1 & R1'), R2 as (e2 & R2 & R2'). exists e1, e2, 1, (3 / 2). cbv zeta.
    rewrite R1', R2'. repeat split; auto.
  Qed.
End W.
