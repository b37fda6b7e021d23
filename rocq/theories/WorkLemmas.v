(** Work and energy (C103), angular momentum in space (C104). *)
From Coq Require Import String List Bool Arith ZArith Lia Reals Lra.
From Flocq Require Import Core.Core.
From Coquelicot Require Import Coquelicot.
From Verif Require Import PyBase Num Arr BaseModel Spec SpecBase XReal NumOrdLemmas ArrLemmas BaseLemmas
  BaseLemmas2 BaseLemmas3 BaseLemmas4 XTac Cwh Utils SixDof SpecRk RkLemmas SpecCwh SpecSixDof CwhLemmas LimLemmas
  SpecFlow FlowLemmas SixDofLemmas SixDofProps SpecSpin SpinLemmas SpecWork.
Import List ListNotations.
Local Open Scope R_scope.
Local Hint Extern 0 (Num xr) => exact (XR Fin) : typeclass_instances.

(** * Clohessy-Wiltshire motion *)
Lemma cwh_work m n samples method d sol fx fy fz : m <> 0 ->
  cwh_dyn (Fin m) (Fin n) samples method = Ok d -> length (sol 0) = 6%nat ->
  solves d (A1 (map Fin [fx; fy; fz])) sol ->
  forall t, m * (hill_energy n (sol t) - hill_energy n (sol 0)) = work (fx, fy, fz) (sol 0) (sol t).
Proof.
  intros Hm Ed L S t.
  destruct (forced_solution Fin m n samples method d sol fx fy fz Hm Ed L S) as (_ & D0 & D1 & D2 & D3 & D4 & D5).
  set (g := fun i t => nth i (sol t) 0).
  change (forall t, is_derive (g 0%nat) t (g 3%nat t)) in D0. change (forall t, is_derive (g 1%nat) t (g 4%nat t)) in D1.
  change (forall t, is_derive (g 2%nat) t (g 5%nat t)) in D2.
  change (forall t, is_derive (g 3%nat) t (3 * n^2 * g 0%nat t + 2 * n * g 4%nat t + fx / m)) in D3.
  change (forall t, is_derive (g 4%nat) t (- 2 * n * g 3%nat t + fy / m)) in D4.
  change (forall t, is_derive (g 5%nat) t (- n^2 * g 2%nat t + fz / m)) in D5.
  assert (C : forall t, m * hill_energy n (sol t) - (fx * g 0%nat t + fy * g 1%nat t + fz * g 2%nat t)
                      = m * hill_energy n (sol 0) - (fx * g 0%nat 0 + fy * g 1%nat 0 + fz * g 2%nat 0)).
  { intros u. unfold hill_energy. cbv zeta.
    repeat match goal with |- context [nth ?i (sol u) 0] => change (nth i (sol u) 0) with (g i u) end.
    repeat match goal with |- context [nth ?i (sol 0) 0] => change (nth i (sol 0) 0) with (g i 0) end.
    apply (const_of_derive (fun t => m * ((g 3%nat t ^ 2 + g 4%nat t ^ 2 + g 5%nat t ^ 2) / 2
       - 3 / 2 * n^2 * g 0%nat t ^ 2 + n^2 * g 2%nat t ^ 2 / 2) - (fx * g 0%nat t + fy * g 1%nat t + fz * g 2%nat t))).
    intros v. specialize (D0 v). specialize (D1 v). specialize (D2 v). specialize (D3 v). specialize (D4 v). specialize (D5 v).
    clearbody g.
    auto_derive; [repeat split; eexists; eassumption|].
    rwD D0. rwD D1. rwD D2. rwD D3. rwD D4. rwD D5. field. exact Hm. }
  specialize (C t). unfold work. cbv zeta. unfold g in C. lra.
Qed.

(** One step of the entity with a solver that makes no error. *)
Lemma cwh_step_work (w : world xr) m n samples a1 a2 a3 a4 a5 a6 e0 (e : entity xr) h s fx fy fz : m <> 0 -> n <> 0 ->
  cwh_spacecraft (Fin m) (Fin n) samples "RK45" a1 a2 a3 a4 a5 a6 = Ok e0 ->
  e_dyn e = e_dyn e0 -> e_cmin e = e_cmin e0 -> e_cmax e = e_cmax e0 ->
  (forall gx gy gz, exact_on w (fun t x => compute_state_dot (e_dyn e0) t x (A1 (map Fin [gx; gy; gz])))) ->
  length s = 6%nat -> e_state e = A1 (map Fin s) ->
  let o := entity_step w e (Fin h) (AArr (A1 (map Fin [fx; fy; fz]))) in
  o_res o = Ok tt /\ exists s', length s' = 6%nat /\ e_state (o_entity o) = A1 (map Fin s') /\
    m * (hill_energy n s' - hill_energy n s) = work (clipR (-1) 1 fx, clipR (-1) 1 fy, clipR (-1) 1 fz) s s'.
Proof.
  intros Hm Hn E De C1 C2 X L Es o.
  destruct (exact_step Fin w m n samples a1 a2 a3 a4 a5 a6 e0 e h s fx fy fz Hm Hn E De C1 C2 X L Es) as (O & Q).
  fold o in O, Q. split; [exact O|].
  destruct (cwh_spacecraft_dyn Fin _ _ _ _ _ _ _ _ _ _ _ E) as (Ed & _).
  pose proof (forced_solves Fin m n samples _ _ s (clipR (-1) 1 fx) (clipR (-1) 1 fy) (clipR (-1) 1 fz) Hm Hn L Ed) as S.
  pose proof (cwh_work m n samples _ _ _ _ _ _ Hm Ed (forced_len n _ _ _ s 0 L) S h) as W.
  rewrite (forced_0 n _ _ _ s Hn L) in W.
  exists (cw_forced n (clipR (-1) 1 fx / m) (clipR (-1) 1 fy / m) (clipR (-1) 1 fz / m) s h).
  split; [apply forced_len; exact L|]. split; [exact Q|exact W].
Qed.

Lemma clip_0 : clipR (-1) 1 0 = 0.
Proof. unfold clipR. rewrite Rmax_left by lra. apply Rmin_left. lra. Qed.

(** Without thrust, any number of steps of any lengths. *)
Lemma cwh_run_energy (w : world xr) m n samples a1 a2 a3 a4 a5 a6 e0 hs : m <> 0 -> n <> 0 ->
  cwh_spacecraft (Fin m) (Fin n) samples "RK45" a1 a2 a3 a4 a5 a6 = Ok e0 ->
  (forall gx gy gz, exact_on w (fun t x => compute_state_dot (e_dyn e0) t x (A1 (map Fin [gx; gy; gz])))) ->
  forall (e : entity xr) s, e_dyn e = e_dyn e0 -> e_cmin e = e_cmin e0 -> e_cmax e = e_cmax e0 ->
  length s = 6%nat -> e_state e = A1 (map Fin s) ->
  exists e' s', run w e (map (fun h => (Fin h, AArr (A1 (map Fin [0; 0; 0])))) hs) = Ok e' /\
    length s' = 6%nat /\ e_state e' = A1 (map Fin s') /\ hill_energy n s' = hill_energy n s.
Proof.
  intros Hm Hn E X. induction hs as [|h hs IH]; intros e s De C1 C2 L Es.
  - exists e, s. split; [reflexivity|]. auto.
  - destruct (cwh_step_work w m n samples _ _ _ _ _ _ e0 e h s 0 0 0 Hm Hn E De C1 C2 X L Es) as (O & s' & L' & Q & W).
    pose proof (entity_step_config w e (Fin h) (AArr (A1 (map Fin [0; 0; 0])))) as (K1 & _ & K3 & K4 & _).
    set (o := entity_step w e (Fin h) (AArr (A1 (map Fin [0; 0; 0])))) in *.
    destruct (IH (o_entity o) s') as (e' & s'' & R1 & R2 & R3 & R4); try congruence.
    exists e', s''. rewrite map_cons. cbn [run]. fold o. rewrite O. cbn [bind]. split; [exact R1|].
    split; [exact R2|]. split; [exact R3|]. rewrite R4.
    rewrite clip_0 in W. unfold work in W. cbv zeta in W.
    assert (m * (hill_energy n s' - hill_energy n s) = 0) by lra.
    apply Rmult_integral in H. destruct H; lra.
Qed.

(** Euler steps: the error of the energy balance is the energy form of the derivative, times h^2. *)
Lemma cwh_euler_work (w : world xr) m n samples a1 a2 a3 a4 a5 a6 e0 (e : entity xr) h s fx fy fz : m <> 0 ->
  (samples <= 0)%Z ->
  cwh_spacecraft (Fin m) (Fin n) samples "Euler" a1 a2 a3 a4 a5 a6 = Ok e0 ->
  e_dyn e = e_dyn e0 -> e_cmin e = e_cmin e0 -> e_cmax e = e_cmax e0 ->
  length s = 6%nat -> e_state e = A1 (map Fin s) ->
  let o := entity_step w e (Fin h) (AArr (A1 (map Fin [fx; fy; fz]))) in
  o_res o = Ok tt /\ exists s' ds, length s' = 6%nat /\
    e_state (o_entity o) = A1 (map Fin s') /\ e_sdot (o_entity o) = A1 (map Fin ds) /\
    m * (hill_energy n s' - hill_energy n s)
    = work (clipR (-1) 1 fx, clipR (-1) 1 fy, clipR (-1) 1 fz) s s' + m * h^2 * hill_energy n ds.
Proof.
  intros Hm Sa E De C1 C2 L Es o. destruct (len6 s L) as (x & y & z & vx & vy & vz & ->).
  destruct (cwh_spacecraft_dyn Fin _ _ _ _ _ _ _ _ _ _ _ E) as (Ed & _ & Cmi & Cma & _).
  destruct (cwh_plain Fin _ _ _ _ _ Ed) as (H1 & H2 & H3 & H4 & H5 & H6 & H7).
  set (gx := clipR (-1) 1 fx). set (gy := clipR (-1) 1 fy). set (gz := clipR (-1) 1 fz).
  destruct (euler_exact Fin w e h [x; y; z; vx; vy; vz] (map Fin [fx; fy; fz]) (map Fin [gx; gy; gz])
    [vx; vy; vz; 3 * n^2 * x + 2 * n * vy + gx / m; - 2 * n * vx + gy / m; - n^2 * z + gz / m])
    as (O & Q & D); rewrite ?De, ?C1, ?C2, ?Cmi, ?Cma; auto.
  - congruence.
  - exact I.
  - exact I.
  - replace (-1/1) with (-1) by field. replace (1/1) with 1 by field. rewrite np_clip_scalar. reflexivity.
  - exact (cwh_raw Fin m n _ _ _ Hm Ed _ x y z vx vy vz gx gy gz).
  - fold o in O, Q, D. split; [exact O|].
    do 2 eexists. split; [|split; [exact Q|split; [exact D|]]]; [reflexivity|].
    cbv [vaxpy zipw hill_energy work nth]. field. exact Hm.
Qed.

(** So without thrust the energy changes: from x = 1 at rest, n = 1, one step of length 1. *)
Lemma cwh_euler_energy_refuted (w : world xr) : exists e o s',
  cwh_spacecraft (Fin 12) (Fin 1) 0 "Euler" (Fin 1) (Fin 0) (Fin 0) (Fin 0) (Fin 0) (Fin 0) = Ok e /\
  o = entity_step w e (Fin 1) (AArr (A1 (map Fin [0; 0; 0]))) /\ o_res o = Ok tt /\
  e_state (o_entity o) = A1 (map Fin s') /\
  hill_energy 1 s' = hill_energy 1 [1; 0; 0; 0; 0; 0] + 9 / 2.
Proof.
  destruct (cwh_spacecraft (Fin 12) (Fin 1) 0 "Euler" (Fin 1) (Fin 0) (Fin 0) (Fin 0) (Fin 0) (Fin 0))
    as [e|x] eqn:E.
  2:{ exfalso. unfold cwh_spacecraft, cwh_dyn, generate_cwh_matrices, pydiv in E. revert E. xstep. discriminate. }
  assert (Es : e_state e = A1 (map Fin [1; 0; 0; 0; 0; 0])).
  { revert E. unfold cwh_spacecraft. destruct (cwh_dyn _ _ _ _); [|discriminate]. intros E. injection E as <-. reflexivity. }
  destruct (cwh_euler Fin w 12 1 0 e 1 1 0 0 0 0 0 0 0 0 _ _ _ _ _ _ ltac:(lra) ltac:(lia) E
    ltac:(lra) ltac:(lra) ltac:(lra) Es) as (O & Q & _).
  eexists. eexists. eexists. split; [reflexivity|]. split; [reflexivity|]. split; [exact O|]. split; [exact Q|].
  cbv [hill_energy nth]. field.
Qed.

(** * Rigid rotation *)
Lemma sixdof_momentum m I i0 i1 i2 lim n body samples method d f M sol : sd_ok m I i0 i1 i2 ->
  sixdof_dyn (Fin m) I (fin3 lim) (Fin n) body samples method = Ok d ->
  length (sol 0) = 13%nat -> solves d (A1 (map Fin (sd_ctrl f M))) sol ->
  (forall t, strictly_within lim (sd_rate (sol t))) ->
  forall t, (forall k, is_derive (fun t => coord k (momentum i0 i1 i2 (sol t))) t (coord k (spin (sd_quat (sol t)) M))) /\
    is_derive (fun t => spin_energy i0 i1 i2 (sol t)) t (dot3 M (sd_rate (sol t))).
Proof.
  intros Ok E L S In. destruct M as [[M0 M1] M2]. set (g := fun i t => nth i (sol t) 0).
  assert (D : forall t, is_derive (g 3%nat) t (1/2 * (g 6%nat t * g 10%nat t - g 5%nat t * g 11%nat t + g 4%nat t * g 12%nat t)) /\
    is_derive (g 4%nat) t (1/2 * (g 5%nat t * g 10%nat t + g 6%nat t * g 11%nat t - g 3%nat t * g 12%nat t)) /\
    is_derive (g 5%nat) t (1/2 * (- g 4%nat t * g 10%nat t + g 3%nat t * g 11%nat t + g 6%nat t * g 12%nat t)) /\
    is_derive (g 6%nat) t (1/2 * (- g 3%nat t * g 10%nat t - g 4%nat t * g 11%nat t - g 5%nat t * g 12%nat t)) /\
    is_derive (g 10%nat) t (((i1 - i2) * g 11%nat t * g 12%nat t + M0) / i0) /\
    is_derive (g 11%nat) t (((i2 - i0) * g 10%nat t * g 12%nat t + M1) / i1) /\
    is_derive (g 12%nat) t (((i0 - i1) * g 10%nat t * g 11%nat t + M2) / i2)).
  { intros t. destruct (S t) as (ds & L1 & L2 & C & D). rewrite L in *. specialize (In t).
    destruct (sd_split (sol t) L1) as (p & q & v & w & Eq). rewrite Eq in C.
    rewrite (sixdof_csd_exact _ _ _ _ _ _ _ _ _ _ _ Ok E) in C.
    apply Ok_Fin_inj in C. subst ds. rewrite Eq in In. rewrite (proj1 (proj2 (sd_nth p q v w))) in In.
    pose proof (D 3%nat ltac:(lia)) as D3. pose proof (D 4%nat ltac:(lia)) as D4.
    pose proof (D 5%nat ltac:(lia)) as D5. pose proof (D 6%nat ltac:(lia)) as D6.
    pose proof (D 10%nat ltac:(lia)) as D10. pose proof (D 11%nat ltac:(lia)) as D11.
    pose proof (D 12%nat ltac:(lia)) as D12. clear D.
    destruct (sd_nths v (qscale (1 / 2) (qmul q (w, 0))) (add3 (sd_cw n p v) (scale3 (/ m) (sd_thrust body q f)))
      (stop3 lim w (add3 (sd_gyro i0 i1 i2 w) (div3 (M0, M1, M2) i0 i1 i2)))) as (N3 & N4 & N5 & N6 & N0 & N1 & N2).
    rewrite N3 in D3. rewrite N4 in D4. rewrite N5 in D5. rewrite N6 in D6.
    rewrite N0 in D10. rewrite N1 in D11. rewrite N2 in D12. rewrite (stop3_inside _ _ _ In) in *.
    unfold g. rewrite Eq. destruct Ok as (_ & H0 & H1 & H2 & _). clear - D3 D4 D5 D6 D10 D11 D12 H0 H1 H2.
    destruct p as [[x y] z], q as [[[q1 q2] q3] q4], v as [[vx vy] vz], w as [[wx wy] wz].
    cbn [sd_state nth].
    refine (conj _ (conj _ (conj _ (conj _ (conj _ (conj _ _)))))).
    - evar_last; [exact D3|unquat; ring].
    - evar_last; [exact D4|unquat; ring].
    - evar_last; [exact D5|unquat; ring].
    - evar_last; [exact D6|unquat; ring].
    - evar_last; [exact D10|cbn; field; auto].
    - evar_last; [exact D11|cbn; field; auto].
    - evar_last; [exact D12|cbn; field; auto]. }
  destruct Ok as (_ & H0 & H1 & H2 & _).
  intros t. destruct (D t) as (D3 & D4 & D5 & D6 & D7 & D8 & D9). clear D.
  assert (Q : forall s, sd_quat (sol s) = ((g 3%nat s, g 4%nat s, g 5%nat s), g 6%nat s)) by reflexivity.
  assert (W : forall s, sd_rate (sol s) = (g 10%nat s, g 11%nat s, g 12%nat s)) by reflexivity.
  unfold momentum, spin_energy. rewrite !Q, !W. clearbody g.
  split.
  - intros k.
    apply (is_derive_ext (fun t => coord k (spin ((g 3%nat t, g 4%nat t, g 5%nat t), g 6%nat t)
        (inertia_mul i0 i1 i2 (g 10%nat t, g 11%nat t, g 12%nat t))))); [intros s; rewrite Q, W; reflexivity|].
    destruct k as [|[|k]]; cbv [coord inertia_mul]; unquat;
      (auto_derive; [repeat split; eexists; eassumption|]);
      rwD D3; rwD D4; rwD D5; rwD D6; rwD D7; rwD D8; rwD D9; field; auto.
  - apply (is_derive_ext (fun t => dot3 (g 10%nat t, g 11%nat t, g 12%nat t)
        (inertia_mul i0 i1 i2 (g 10%nat t, g 11%nat t, g 12%nat t)) / 2)); [intros s; rewrite W; reflexivity|].
    cbv [inertia_mul]; unquat.
    auto_derive; [repeat split; eexists; eassumption|].
    rwD D7. rwD D8. rwD D9. field. auto.
Qed.

(** Without moments the angular momentum is constant in space. *)
Lemma sixdof_momentum_kept m I i0 i1 i2 lim n body samples method d f sol : sd_ok m I i0 i1 i2 ->
  sixdof_dyn (Fin m) I (fin3 lim) (Fin n) body samples method = Ok d ->
  length (sol 0) = 13%nat -> solves d (A1 (map Fin (sd_ctrl f (0, 0, 0)))) sol ->
  (forall t, strictly_within lim (sd_rate (sol t))) ->
  forall t, momentum i0 i1 i2 (sol t) = momentum i0 i1 i2 (sol 0).
Proof.
  intros Ok E L S In t.
  assert (K : forall k, coord k (momentum i0 i1 i2 (sol t)) = coord k (momentum i0 i1 i2 (sol 0))).
  { intros k. apply (const_of_derive (fun t => coord k (momentum i0 i1 i2 (sol t)))). intros u.
    evar_last; [apply (sixdof_momentum _ _ _ _ _ _ _ _ _ _ _ _ _ _ Ok E L S In u)|].
    destruct (sd_quat (sol u)) as [[[a b] c] e]. destruct k as [|[|k]]; cbv [coord]; unquat; ring. }
  destruct (momentum i0 i1 i2 (sol t)) as [[a b] c], (momentum i0 i1 i2 (sol 0)) as [[a' b'] c'].
  pose proof (K 0%nat) as K0. pose proof (K 1%nat) as K1. pose proof (K 2%nat) as K2. cbn [coord] in *. congruence.
Qed.

(** One step of the entity along a solution that stays below the rate limits. *)
Lemma sixdof_exact_step (w0 : world xr) m I i0 i1 i2 lim n body samples (e : entity xr) flo fhi mlo mhi f M phi h :
  sd_ok m I i0 i1 i2 -> sixdof_dyn (Fin m) I (fin3 lim) (Fin n) body samples "RK45" = Ok (e_dyn e) ->
  e_cmin e = A1 (map Fin (sd_ctrl flo mlo)) -> e_cmax e = A1 (map Fin (sd_ctrl fhi mhi)) ->
  let u := A1 (map Fin (sd_ctrl (clipc flo fhi f) (clipc mlo mhi M))) in
  exact_on w0 (fun t x => compute_state_dot (e_dyn e) t x u) ->
  length (phi 0) = 13%nat -> solves (e_dyn e) u phi -> (forall t, strictly_within lim (sd_rate (phi t))) ->
  e_state e = A1 (map Fin (phi 0)) ->
  let o := entity_step w0 e (Fin h) (AArr (A1 (map Fin (sd_ctrl f M)))) in
  o_res o = Ok tt /\ e_state (o_entity o) = A1 (map Fin (phi h)).
Proof.
  intros K E C1 C2 u X L S In Es o. subst o.
  unfold entity_step. cbn [decode_action]. rewrite C1, C2.
  assert (Cl : np_clip (A1 (map Fin (sd_ctrl f M))) (A1 (map Fin (sd_ctrl flo mlo))) (A1 (map Fin (sd_ctrl fhi mhi))) = Ok u).
  { unfold u. destruct flo as [[a0 a1] a2], fhi as [[b0 b1] b2], mlo as [[c0 c1] c2], mhi as [[d0 d1] d2], f as [[f0 f1] f2], M as [[m0 m1] m2].
    rewrite np_clip_list by reflexivity. cbn [sd_ctrl map expand clip_list length clipc]. rewrite !clip1_Fin. reflexivity. }
  edestruct (out_of_bounds_spec (A1 (map Fin (sd_ctrl f M))) (A1 (map Fin (sd_ctrl flo mlo))) (A1 (map Fin (sd_ctrl fhi mhi)))) as (b & Eb & _).
  1: destruct f as [[? ?] ?], M as [[? ?] ?], flo as [[? ?] ?], mlo as [[? ?] ?]; reflexivity.
  1: destruct f as [[? ?] ?], M as [[? ?] ?], fhi as [[? ?] ?], mhi as [[? ?] ?]; reflexivity.
  rewrite Eb, Cl. unfold dyn_step, dyn__step.
  destruct lim as [[l0 l1] l2]. pose proof E as E'. cbn [fin3] in E'.
  destruct (sixdof_dyn_inv _ _ _ _ _ _ _ _ _ _ E') as (D1 & D2 & D3 & D4 & D5 & D6 & D7 & _).
  rewrite D7. cbn [String.eqb Ascii.eqb Bool.eqb]. rewrite Es. set (te := if (0 <? _)%Z then _ else _).
  destruct (X h te phi) as (sol & rows & Q1 & Q2).
  - exact S.
  - intros ts Ets. unfold te in Ets. rewrite D6 in Ets. destruct (0 <? samples)%Z eqn:Sa; [|discriminate].
    injection Ets as <-. apply Z.ltb_lt in Sa. apply (t_eval_last Fin). lia.
  - rewrite Q1, Q2.
    destruct (rows ++ [map Fin (phi h)])%list as [|r0 rs] eqn:Er; [destruct rows; discriminate|].
    rewrite <- Er. unfold last_row. rewrite rev_app_distr. cbn [rev app bind].
    destruct (S h) as (ds & Lh & _ & C & _). rewrite L in Lh.
    specialize (In h). destruct (sd_split (phi h) Lh) as (p & q & v & w & Eq). rewrite Eq in *.
    rewrite C. cbn [bind]. rewrite (proj1 (proj2 (sd_nth p q v w))) in In.
    rewrite D1, D2. destruct p as [[x1 x2] x3], q as [[[q1 q2] q3] q4], v as [[v1 v2] v3], w as [[w1 w2] w3].
    rewrite np_clip_list by reflexivity. cbn [sd_state map expand clip_list length].
    change (@nninf xr _) with NInf. change (@npinf xr _) with PInf. cbn [nneg XR xneg]. rewrite !clip1_none, !clip1_Fin.
    cbv [strictly_within] in In. rewrite !clipR_id by lra. cbn [bind]. unfold wrap_angles. rewrite D5. cbn [bind].
    split; reflexivity.
Qed.

Lemma sixdof_step_momentum (w0 : world xr) m I i0 i1 i2 A V al vl iw aw vw thr body n samples p q v w e f phi h :
  sd_ok m I i0 i1 i2 -> limit_arg A al -> limit_arg V vl ->
  sixdof_build m I A V iw aw vw thr body n samples "RK45" p q v w = Ok e ->
  let acc := wheel_limit al iw aw i0 i1 i2 in
  SpecSixDof.within acc (0, 0, 0) -> 0 < i0 -> 0 < i1 -> 0 < i2 ->
  let u := A1 (map Fin (sd_ctrl (clipc (neg3 (thr, thr, thr)) (thr, thr, thr) f) (0, 0, 0))) in
  exact_on w0 (fun t x => compute_state_dot (e_dyn e) t x u) ->
  phi 0 = sd_state p q v w -> solves (e_dyn e) u phi ->
  (forall t, strictly_within (wheel_limit vl iw vw i0 i1 i2) (sd_rate (phi t))) ->
  let o := entity_step w0 e (Fin h) (AArr (A1 (map Fin (sd_ctrl f (0, 0, 0))))) in
  o_res o = Ok tt /\ exists s', e_state (o_entity o) = A1 (map Fin s') /\
    momentum i0 i1 i2 s' = momentum i0 i1 i2 (sd_state p q v w) /\
    spin_energy i0 i1 i2 s' = spin_energy i0 i1 i2 (sd_state p q v w).
Proof.
  intros K La Lv E acc Ha P0 P1 P2 u X S0 S In o.
  destruct (sixdof_limits _ _ _ _ _ _ _ _ _ _ _ _ _ _ _ _ _ _ _ _ _ _ K La Lv E) as (D & Cx & Cm & Es).
  assert (Z : clipc (neg3 (inertia_mul i0 i1 i2 acc)) (inertia_mul i0 i1 i2 acc) (0, 0, 0) = (0, 0, 0)).
  { clearbody acc. destruct acc as [[a0 a1] a2]. cbv [SpecSixDof.within] in Ha. cbv [clipc neg3 scale3 inertia_mul].
    rewrite !clipR_id by nra. reflexivity. }
  assert (L : length (phi 0) = 13%nat).
  { rewrite S0. destruct p as [[? ?] ?], q as [[[? ?] ?] ?], v as [[? ?] ?], w as [[? ?] ?]. reflexivity. }
  rewrite <- S0 in *.
  destruct (sixdof_exact_step w0 m I i0 i1 i2 _ n body samples e _ _ _ _ f (0, 0, 0) phi h K D Cm Cx) as (O & Q).
  - fold acc. rewrite Z. exact X.
  - exact L.
  - fold acc. rewrite Z. exact S.
  - exact In.
  - exact Es.
  - split; [exact O|]. exists (phi h). split; [exact Q|]. split.
    + eapply sixdof_momentum_kept; eassumption.
    + apply (const_of_derive (fun t => spin_energy i0 i1 i2 (phi t))). intros t. evar_last.
      * apply (sixdof_momentum _ _ _ _ _ _ _ _ _ _ _ _ _ _ K D L S In t).
      * destruct (sd_rate (phi t)) as [[a b] c]. cbv [dot3]. ring.
Qed.

(** Euler steps do not keep the length of the angular momentum: moments of inertia 1, 2, 3,
    rates 1, one step of one second. *)
Lemma sixdof_euler_momentum_refuted (w0 : world xr) : exists e p q v w,
  sixdof_build 1 (diag 1 2 3) (NAnum (PyInt 1)) (NAnum (PyInt 9)) 10 10 10 1 true 0 0 "Euler"
    (0, 0, 0) ((0, 0, 0), 1) (0, 0, 0) (1, 1, 1) = Ok e /\
  let o := entity_step w0 e (Fin 1) (AArr (A1 (map Fin (sd_ctrl (0, 0, 0) (0, 0, 0))))) in
  o_res o = Ok tt /\ e_state (o_entity o) = A1 (map Fin (sd_state p q v w)) /\
  dot3 (inertia_mul 1 2 3 (1, 1, 1)) (inertia_mul 1 2 3 (1, 1, 1)) = 14 /\
  dot3 (inertia_mul 1 2 3 w) (inertia_mul 1 2 3 w) = 20.
Proof.
  assert (La : limit_arg (NAnum (PyInt 1)) (1, 1, 1)).
  { right. eexists. split; [reflexivity|]. cbn. repeat split; apply (f_equal Fin); field. }
  assert (Lv : limit_arg (NAnum (PyInt 9)) (9, 9, 9)).
  { right. eexists. split; [reflexivity|]. cbn. repeat split; apply (f_equal Fin); field. }
  destruct (sixdof_craft_ok 1 (diag 1 2 3) _ _ _ _ 10 10 10 1 true 0 0%Z "Euler" (0, 0, 0) ((0, 0, 0), 1) (0, 0, 0) (1, 1, 1) ltac:(lra) La Lv) as [e E].
  assert (Hok : sd_ok 1 (diag 1 2 3) 1 2 3) by (repeat split; lra).
  destruct (sixdof_limits _ _ _ _ _ _ _ _ _ _ _ _ _ _ _ _ _ _ _ _ _ _ Hok La Lv E) as (D & Cx & Cm & Es).
  pose proof (sixdof_step w0 _ _ _ _ _ _ _ _ _ e Hok (Z.le_refl 0) D _ _ _ _ Cm Cx _ _ _ _ (0,0,0) (0,0,0) 1 Es) as S.
  cbv zeta in S. destruct S as (S1 & _ & S3).
  exists e. do 4 eexists. split; [exact E|]. split; [exact S1|]. split; [exact S3|]. split; [cbn; ring|].
  assert (Lm : wheel_limit (9, 9, 9) 10 10 1 2 3 = (9, 9, 9)) by (cbv [wheel_limit]; rewrite !Rmin_left by lra; reflexivity).
  assert (Lc : wheel_limit (1, 1, 1) 10 10 1 2 3 = (1, 1, 1)) by (cbv [wheel_limit]; rewrite !Rmin_left by lra; reflexivity).
  rewrite Lm, Lc, stop3_inside by (cbv [strictly_within]; lra).
  cbv [clipc neg3 scale3 inertia_mul]. rewrite !(clipR_id _ _ 0) by lra.
  cbv [add3 sd_gyro div3 scale3 clip3]. rewrite !clipR_id by lra. cbv [dot3]. field.
Qed.

(** * Examples *)
(** A thrust of 1 along x for half an orbit from rest at the origin, n = m = 1. *)
Lemma work_example :
  let s' := cw_forced 1 1 0 0 [0; 0; 0; 0; 0; 0] PI in
  s' = [2; -2 * PI; 0; 0; -4; 0] /\ hill_energy 1 s' = 2 /\ work (1, 0, 0) [0; 0; 0; 0; 0; 0] s' = 2.
Proof.
  assert (E : cw_forced 1 1 0 0 [0; 0; 0; 0; 0; 0] PI = [2; -2 * PI; 0; 0; -4; 0]).
  { rewrite forced_eq. cbv zeta. rewrite Rmult_1_l, sin_PI, cos_PI. fin_list; field. }
  cbv zeta. rewrite E. split; [reflexivity|]. cbv [hill_energy work nth]. split; field.
Qed.

(** Steady rotation about the third principal axis, moments of inertia 1, 2, 3. *)
Lemma momentum_example : exists d phi,
  sixdof_dyn (Fin 1) (diag 1 2 3) (fin3 (9, 9, 9)) (Fin 1) true 0 "RK45" = Ok d /\
  solves d (A1 (map Fin (sd_ctrl (0, 0, 0) (0, 0, 0)))) phi /\
  phi 0 = sd_state (5, 0, 0) ((0, 0, 0), 1) (0, 1, 0) (0, 0, 2) /\
  forall t, momentum 1 2 3 (phi t) = (0, 0, 6).
Proof.
  destruct (sixdof_dyn_ok 1 (diag 1 2 3) (9, 9, 9) 1 true 0%Z "RK45" ltac:(lra)) as [d E]. exists d.
  assert (K : sd_ok 1 (diag 1 2 3) 1 2 3) by (repeat split; lra).
  assert (G : sd_gyro 1 2 3 (0, 0, 2) = zero3) by (cbv [sd_gyro zero3]; repeat apply (f_equal2 pair); field).
  set (phi := sd_coast 1 (5, 0, 0) ((0, 0, 0), 1) (0, 1, 0) (0, 0, 2)). exists phi.
  pose proof (coast_solves 1 (diag 1 2 3) 1 2 3 (9, 9, 9) 1 true 0%Z "RK45" d (5, 0, 0) ((0, 0, 0), 1) (0, 1, 0) (0, 0, 2) K R1_neq_R0 E G) as S.
  fold phi in S.
  assert (P0 : phi 0 = sd_state (5, 0, 0) ((0, 0, 0), 1) (0, 1, 0) (0, 0, 2)) by (apply coast_0; lra).
  split; [exact E|]. split; [exact S|]. split; [exact P0|]. intros t.
  rewrite (sixdof_momentum_kept _ _ _ _ _ _ _ _ _ _ _ (0, 0, 0) phi K E).
  - rewrite P0. cbv [momentum sd_state inertia_mul nth sd_quat sd_rate]. unquat. repeat apply (f_equal2 pair); ring.
  - rewrite P0. reflexivity.
  - exact S.
  - intros u. destruct (coast_state 1 (5, 0, 0) ((0, 0, 0), 1) (0, 1, 0) (0, 0, 2) u) as (p' & v' & Q).
    unfold phi. rewrite Q. rewrite (proj1 (proj2 (sd_nth _ _ _ _))). cbv [strictly_within]. lra.
Qed.
