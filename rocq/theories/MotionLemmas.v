(** Speed bounds of the integrators, slew bounds of the 2d rotational spacecraft, turning
    flight of the Dubins aircraft. *)
From Coq Require Import String List Bool Arith ZArith Lia Reals Lra.
From Flocq Require Import Core.Core.
From Coquelicot Require Import Coquelicot.
From Verif Require Import PyBase Num Arr BaseModel Spec SpecBase SpecWrap XReal NumOrdLemmas ArrLemmas BaseLemmas
  BaseLemmas2 BaseLemmas3 BaseLemmas4 XTac WrapLemmas SpecRk SpecCwh RkLemmas Cwh CwhLemmas LimLemmas Integ SpecInteg IntegLemmas
  Rot2d Rot2dLemmas Dubins DubinsLemmas SpecFlow.
Import List ListNotations.
Local Open Scope R_scope.

(** ** Integrators *)
Lemma f2_zip (m c h B : R) : forall vs us, length us = length vs ->
  (forall v u, Rabs (v + h * axis_accel m c v (clipR (-1) 1 u)) <= Rmax (Rabs v) B) ->
  Forall2 (fun a b => Rabs a <= Rmax (Rabs b) B) (vaxpy vs h (zipw (axis_accel m c) vs (map (clipR (-1) 1) us))) vs.
Proof.
  induction vs as [|v vs IH]; intros [|u us] L H; try discriminate; [constructor|].
  cbn. constructor; [apply H|]. apply IH; auto.
Qed.
Lemma f2_zip_add (m c h B : R) : forall vs us, length us = length vs ->
  (forall v u, Rabs (v + h * axis_accel m c v (clipR (-1) 1 u)) <= Rabs v + B) ->
  Forall2 (fun a b => Rabs a <= Rabs b + B) (vaxpy vs h (zipw (axis_accel m c) vs (map (clipR (-1) 1) us))) vs.
Proof.
  induction vs as [|v vs IH]; intros [|u us] L H; try discriminate; [constructor|].
  cbn. constructor; [apply H|]. apply IH; auto.
Qed.
Lemma clip_unit u : Rabs (clipR (-1) 1 u) <= 1.
Proof.
  apply Rabs_le. unfold clipR, Rmin, Rmax. repeat destruct (Rle_dec _ _); lra.
Qed.
Lemma accel_abs m c h v u : 0 < m -> 0 <= h -> 0 <= c * h <= 1 ->
  Rabs (v + h * axis_accel m c v (clipR (-1) 1 u)) <= (1 - c * h) * Rabs v + h / m.
Proof.
  intros Hm Hh Hc. unfold axis_accel.
  replace (v + h * (- c * v + clipR (-1) 1 u / m)) with ((1 - c * h) * v + h / m * clipR (-1) 1 u) by (field; lra).
  eapply Rle_trans; [apply Rabs_triang|]. rewrite !Rabs_mult, (Rabs_pos_eq (1 - c * h)) by lra.
  assert (Q : 0 <= h / m) by (apply Rmult_le_pos; [auto|left; apply Rinv_0_lt_compat; auto]).
  rewrite (Rabs_pos_eq (h / m)) by auto.
  pose proof (clip_unit u). pose proof (Rabs_pos (clipR (-1) 1 u)).
  assert (h / m * Rabs (clipR (-1) 1 u) <= h / m * 1) by (apply Rmult_le_compat_l; auto). lra.
Qed.
Lemma terminal_step m c h v u : 0 < m -> 0 < c -> 0 <= c * h <= 1 ->
  Rabs (v + h * axis_accel m c v (clipR (-1) 1 u)) <= Rmax (Rabs v) (1 / (m * c)).
Proof.
  intros Hm Hc Hh.
  assert (h0 : 0 <= h) by nra.
  eapply Rle_trans; [apply accel_abs; auto|].
  set (B := Rmax _ _). assert (B1 : Rabs v <= B) by apply Rmax_l. assert (B2 : 1 / (m * c) <= B) by apply Rmax_r.
  replace (h / m) with (c * h * (1 / (m * c))) by (field; lra). nra.
Qed.
Lemma slow_step m c h v u : 0 < m -> 0 <= h -> 0 <= c * h <= 1 ->
  Rabs (v + h * axis_accel m c v (clipR (-1) 1 u)) <= Rabs v + h / m.
Proof.
  intros Hm Hh Hc. eapply Rle_trans; [apply accel_abs; auto|]. pose proof (Rabs_pos v). nra.
Qed.

Section Integrators.
  Variable r32 : R -> xr.
  Local Hint Extern 0 (Num xr) => exact (XR r32) : typeclass_instances.

  (** Arbitrary controls are saturated first. *)
  Lemma integ_euler_any (w : world xr) m c mode k samples e h ps vs us : m <> 0 -> offered mode k -> (samples <= 0)%Z ->
    plain_integ r32 m c mode k samples "Euler" e ->
    length ps = k -> length vs = k -> length us = k -> e_state e = point_state ps vs ->
    let o := entity_step w e (Fin h) (AArr (A1 (map Fin us))) in
    o_res o = Ok tt /\
    e_state (o_entity o) = point_state (vaxpy ps h vs) (vaxpy vs h (zipw (axis_accel m c) vs (map (clipR (-1) 1) us))).
  Proof.
    intros Hm Of Sa (E & C1 & C2 & C3) L1 L2 L3 Es.
    destruct (integ_ok r32 m c mode k samples "Euler" Hm Of) as (d' & E' & H1 & H2 & H3 & H4 & H5 & H6 & H7 & H8).
    assert (d' = e_dyn e) by congruence. subst d'.
    assert (Cl : np_clip (A1 (map Fin us)) (e_cmin e) (e_cmax e) = Ok (A1 (map Fin (map (clipR (-1) 1) us)))).
    { rewrite C1, C2. change (@nZ xr (XR r32) (-1)) with (Fin (-1/1)). change (@n1 xr (XR r32)) with (Fin (1/1)).
      replace (-1/1) with (-1) by field. replace (1/1) with 1 by field. apply np_clip_scalar. }
    edestruct (euler_exact r32 w e h (ps ++ vs) (map Fin us) (map Fin (map (clipR (-1) 1) us))
                (vs ++ zipw (axis_accel m c) vs (map (clipR (-1) 1) us))) as (R1 & R2 & _); auto.
    - rewrite H7. exact Sa.
    - rewrite C1. exact I.
    - rewrite C2. exact I.
    - apply (H8 _ ps vs (map (clipR (-1) 1) us) L1 L2). rewrite map_length. exact L3.
    - rewrite !app_length, zipw_len; rewrite ?map_length; lia.
    - split; [exact R1|]. cbv zeta. rewrite R2. unfold point_state. rewrite vaxpy_app by lia. reflexivity.
  Qed.

  Lemma integ_run_step (w : world xr) m c mode k samples h us l e ps vs : m <> 0 -> offered mode k -> (samples <= 0)%Z ->
    plain_integ r32 m c mode k samples "Euler" e -> length ps = k -> length vs = k -> length us = k ->
    e_state e = point_state ps vs ->
    exists e1, run w e (thrusts ((h, us) :: l)) = run w e1 (thrusts l) /\
      plain_integ r32 m c mode k samples "Euler" e1 /\
      e_state e1 = point_state (vaxpy ps h vs) (vaxpy vs h (zipw (axis_accel m c) vs (map (clipR (-1) 1) us))) /\
      length (vaxpy ps h vs) = k /\ length (vaxpy vs h (zipw (axis_accel m c) vs (map (clipR (-1) 1) us))) = k.
  Proof.
    intros Hm Of Sa Pl L1 L2 L3 Es.
    destruct (integ_euler_any w m c mode k samples e h ps vs us Hm Of Sa Pl L1 L2 L3 Es) as (R1 & R2).
    pose proof (entity_step_config w e (Fin h) (AArr (A1 (map Fin us)))) as (F1 & F2 & F3 & F4 & F5).
    exists (o_entity (entity_step w e (Fin h) (AArr (A1 (map Fin us))))).
    split; [unfold thrusts; cbn [map run fst snd]; rewrite R1; reflexivity|].
    split; [destruct Pl as (P1 & P2 & P3 & P4); repeat split; congruence|]. split; [exact R2|].
    unfold vaxpy. rewrite !zipw_len; rewrite ?zipw_len; rewrite ?map_length; auto; lia.
  Qed.

  Lemma terminal_run (w : world xr) m c mode k samples : 0 < m -> 0 < c -> offered mode k -> (samples <= 0)%Z ->
    forall (l : list (R * list R)) e ps vs,
    (forall h us, In (h, us) l -> 0 <= c * h <= 1 /\ length us = k) ->
    plain_integ r32 m c mode k samples "Euler" e -> length ps = k -> length vs = k -> e_state e = point_state ps vs ->
    exists e' ps' vs', run w e (thrusts l) = Ok e' /\ e_state e' = point_state ps' vs' /\ length ps' = k /\
      Forall2 (fun a b => Rabs a <= Rmax (Rabs b) (1 / (m * c))) vs' vs.
  Proof.
    intros Hm Hc Of Sa. induction l as [|[h us] l IH]; intros e ps vs H Pl L1 L2 Es.
    - exists e, ps, vs. repeat split; auto. clear. induction vs; constructor; auto. apply Rmax_l.
    - destruct (H h us (or_introl eq_refl)) as (Hh & L3).
      destruct (integ_run_step w m c mode k samples h us l e ps vs ltac:(lra) Of Sa Pl L1 L2 L3 Es) as (e1 & R1 & P1 & S1 & K1 & K2).
      destruct (IH e1 _ _ (fun h us i => H h us (or_intror i)) P1 K1 K2 S1) as (e' & ps' & vs' & Q1 & Q2 & Q3 & Q4).
      exists e', ps', vs'. split; [rewrite R1; exact Q1|]. split; [exact Q2|]. split; [exact Q3|].
      pose proof (f2_zip m c h (1 / (m * c)) vs us ltac:(lia) (fun v u => terminal_step m c h v u Hm Hc Hh)) as Q5.
      revert Q4 Q5. generalize (vaxpy vs h (zipw (axis_accel m c) vs (map (clipR (-1) 1) us))) as ws.
      clear. intros ws F. revert vs. induction F as [|a b la lb Hab F IH]; intros vs G; inversion G; subst; constructor; auto.
      eapply Rle_trans; [exact Hab|]. apply Rmax_lub; [|apply Rmax_r]. assumption.
  Qed.

  Lemma slow_run (w : world xr) m c mode k samples : 0 < m -> offered mode k -> (samples <= 0)%Z ->
    forall (l : list (R * list R)) e ps vs,
    (forall h us, In (h, us) l -> 0 <= h /\ 0 <= c * h <= 1 /\ length us = k) ->
    plain_integ r32 m c mode k samples "Euler" e -> length ps = k -> length vs = k -> e_state e = point_state ps vs ->
    exists e' ps' vs', run w e (thrusts l) = Ok e' /\ e_state e' = point_state ps' vs' /\ length ps' = k /\
      Forall2 (fun a b => Rabs a <= Rabs b + fold_right Rplus 0 (map fst l) / m) vs' vs.
  Proof.
    intros Hm Of Sa. induction l as [|[h us] l IH]; intros e ps vs H Pl L1 L2 Es.
    - exists e, ps, vs. repeat split; auto. clear - Hm. induction vs; constructor; auto. cbn. unfold Rdiv. lra.
    - destruct (H h us (or_introl eq_refl)) as (Hh & Hc & L3).
      destruct (integ_run_step w m c mode k samples h us l e ps vs ltac:(lra) Of Sa Pl L1 L2 L3 Es) as (e1 & R1 & P1 & S1 & K1 & K2).
      destruct (IH e1 _ _ (fun h us i => H h us (or_intror i)) P1 K1 K2 S1) as (e' & ps' & vs' & Q1 & Q2 & Q3 & Q4).
      exists e', ps', vs'. split; [rewrite R1; exact Q1|]. split; [exact Q2|]. split; [exact Q3|].
      pose proof (f2_zip_add m c h (h / m) vs us ltac:(lia) (fun v u => slow_step m c h v u Hm Hh Hc)) as Q5.
      cbn [map fst fold_right].
      revert Q4 Q5. generalize (vaxpy vs h (zipw (axis_accel m c) vs (map (clipR (-1) 1) us))) as ws.
      set (el := fold_right Rplus 0 (map fst l)). generalize el. clear - Hm. intros el ws F. revert vs.
      induction F as [|a b la lb Hab F IH]; intros vs G; inversion G; subst; constructor; auto.
      replace ((h + el) / m) with (h / m + el / m) by (field; lra). lra.
  Qed.

  (** Constant thrust within the limits: the distance to the terminal velocity shrinks by
      the factor 1 - c h per step. *)
  Lemma vel_contracts m c h : m <> 0 -> c <> 0 -> forall vs us, length us = length vs -> Forall (fun u => -1 <= u <= 1) us ->
    zipw (fun v u => v - u / (m * c)) (vaxpy vs h (zipw (axis_accel m c) vs (map (clipR (-1) 1) us))) us =
    map (Rmult (1 - c * h)) (zipw (fun v u => v - u / (m * c)) vs us).
  Proof.
    intros Hm Hc. induction vs as [|v vs IH]; intros [|u us] L F; try discriminate; [reflexivity|].
    inversion F; subst. cbn. f_equal; [|apply IH; auto]. rewrite clipR_id by lra. unfold axis_accel. field. auto.
  Qed.
  Lemma contract_run (w : world xr) m c mode k samples h us : m <> 0 -> c <> 0 -> offered mode k -> (samples <= 0)%Z ->
    length us = k -> Forall (fun u => -1 <= u <= 1) us ->
    forall j e ps vs, plain_integ r32 m c mode k samples "Euler" e -> length ps = k -> length vs = k ->
    e_state e = point_state ps vs ->
    exists e' ps' vs', run w e (thrusts (repeat (h, us) j)) = Ok e' /\ e_state e' = point_state ps' vs' /\ length ps' = k /\
      length vs' = k /\
      zipw (fun v u => v - u / (m * c)) vs' us = map (Rmult ((1 - c * h)^j)) (zipw (fun v u => v - u / (m * c)) vs us).
  Proof.
    intros Hm Hc Of Sa Lu Hu. induction j as [|j IH]; intros e ps vs Pl L1 L2 Es.
    - exists e, ps, vs. repeat split; auto. cbn [pow]. rewrite <- (map_id (zipw _ vs us)) at 1. apply map_ext. intros; ring.
    - cbn [repeat].
      destruct (integ_run_step w m c mode k samples h us (repeat (h, us) j) e ps vs Hm Of Sa Pl L1 L2 Lu Es) as (e1 & R1 & P1 & S1 & K1 & K2).
      destruct (IH e1 _ _ P1 K1 K2 S1) as (e' & ps' & vs' & Q1 & Q2 & Q3 & Q4 & Q5).
      exists e', ps', vs'. split; [rewrite R1; exact Q1|]. repeat split; auto.
      rewrite Q5, vel_contracts by (auto; lia). rewrite map_map. apply map_ext. intros; cbn [pow]; ring.
  Qed.
End Integrators.

(** ** Slew of the 2d rotational spacecraft *)
Lemma clipR_range lo hi x : lo <= hi -> lo <= clipR lo hi x <= hi.
Proof. intros H. unfold clipR, Rmin, Rmax. repeat destruct (Rle_dec _ _); lra. Qed.
Lemma clipR_closer lo hi x y : lo <= y <= hi -> Rabs (clipR lo hi x - y) <= Rabs (x - y).
Proof.
  intros H. unfold clipR, Rmin, Rmax. repeat destruct (Rle_dec _ _); try lra;
    unfold Rabs; repeat destruct (Rcase_abs _); lra.
Qed.
Lemma stopR_abs lo hi x r B : Rabs r <= B -> Rabs (stopR lo hi x r) <= B.
Proof.
  intros H. unfold stopR, Rmin, Rmax.
  repeat destruct (Rle_dec _ _); auto; rewrite Rabs_R0; pose proof (Rabs_pos r); lra.
Qed.
Section Rot.
  Variable rd : R -> R.
  Local Hint Extern 0 (Num xr) => exact (XR (fun x => Fin (rd x))) : typeclass_instances.

  Lemma rot2d_slew (w : world xr) m inertia al vl iw aw vw n samples jax x0 y0 th0 vx0 vy0 wz0 e0 :
    m <> 0 -> 0 < inertia -> (samples <= 0)%Z ->
    rot2d_spacecraft w (Fin m) (Fin inertia) (Fin al) (Fin vl) (Fin iw) (Fin aw) (Fin vw) (Fin n) samples "Euler" jax
      x0 y0 th0 vx0 vy0 wz0 = Ok e0 ->
    let acc := Rmin al (iw * aw / inertia) in
    let vel := Rmin vl (iw * vw / inertia) in
    0 <= acc -> 0 <= vel ->
    forall (l : list (R * list R)) e x y th vx vy wz,
      Forall (fun p => 0 <= fst p /\ length (snd p) = 3%nat) l ->
      e_dyn e = e_dyn e0 -> e_cmin e = e_cmin e0 -> e_cmax e = e_cmax e0 ->
      e_state e = A1 (map Fin [x; y; th; vx; vy; wz]) -> - vel <= wz <= vel ->
      exists e' x' y' th' vx' vy' wz' turn, run w e (thrusts l) = Ok e' /\
        e_state e' = A1 (map Fin [x'; y'; th'; vx'; vy'; wz']) /\
        - vel <= wz' <= vel /\ Rabs (wz' - wz) <= acc * fold_right Rplus 0 (map fst l) /\
        same_angle th' (th + turn) /\ Rabs turn <= vel * fold_right Rplus 0 (map fst l).
  Proof.
    intros Hm Hi Sa E acc vel Ha Hv.
    destruct (rot2d_limits rd _ _ _ _ _ _ _ _ _ _ _ _ _ _ _ _ _ _ _ Hi E) as (D & C1 & C2).
    fold acc vel in D, C1, C2.
    induction l as [|[h us] l IH]; intros e x y th vx vy wz F De K1 K2 Es Hw.
    - exists e, x, y, th, vx, vy, wz, 0. cbn. repeat split; auto; try lra.
      + rewrite Rminus_diag_eq, Rabs_R0; lra.
      + exists 0%Z. lra.
      + rewrite Rabs_R0; lra.
    - inversion F as [|? ? [Hh L3] F']; subst. cbn [fst snd] in Hh, L3.
      destruct us as [|fx [|fy [|mz []]]]; try discriminate.
      destruct (rot2d_euler rd w m inertia acc vel n samples e h [x; y; th; vx; vy; wz] [fx; fy; mz] Hm (Rgt_not_eq _ _ Hi) Sa jax
        ltac:(rewrite De; exact D) eq_refl eq_refl Es _ _ ltac:(rewrite K1; exact C1) ltac:(rewrite K2; exact C2) eq_refl eq_refl)
        as (R1 & _ & R3).
      pose proof (entity_step_config w e (Fin h) (AArr (A1 (map Fin [fx; fy; mz])))) as (F1 & _ & F3 & F4 & _).
      set (o := entity_step w e (Fin h) (AArr (A1 (map Fin [fx; fy; mz])))) in *.
      cbn [rot2d_next rot2d_rate zipw fst snd] in R3.
      match type of R3 with _ = A1 (map Fin [?a; ?b; ?c; ?d; ?f; ?g]) =>
        destruct (IH (o_entity o) a b c d f g F' ltac:(congruence) ltac:(congruence) ltac:(congruence) R3) as
          (e' & x' & y' & th' & vx' & vy' & wz' & turn & Q1 & Q2 & Q3 & Q4 & Q5 & Q6) end.
      + apply clipR_range. lra.
      + match type of Q4 with Rabs (_ - ?g) <= _ => set (wz1 := g) in * end.
        assert (W1 : Rabs (wz1 - wz) <= acc * h).
        { unfold wz1. eapply Rle_trans; [apply clipR_closer; exact Hw|].
          match goal with |- Rabs (wz + h * ?r - wz) <= _ => replace (wz + h * r - wz) with (h * r) by ring end.
          rewrite Rabs_mult, (Rabs_pos_eq h Hh), Rmult_comm. apply Rmult_le_compat_r; [exact Hh|].
          apply stopR_abs, Rabs_le. apply clipR_range. lra. }
        exists e', x', y', th', vx', vy', wz'.
        match type of Q5 with same_angle _ (wrapR 0 (th + h * ?r) + _) => set (rate := r) in *; exists (h * rate + turn) end.
        assert (W2 : Rabs (h * rate) <= vel * h).
        { rewrite Rabs_mult, (Rabs_pos_eq h Hh), Rmult_comm. apply Rmult_le_compat_r; [exact Hh|].
          apply Rabs_le, clipR_range. lra. }
        split; [change (thrusts ((h, [fx; fy; mz]) :: l)) with ((Fin h, AArr (A1 (map Fin [fx; fy; mz]))) :: thrusts l);
                cbn [run]; fold o; rewrite R1; exact Q1|].
        split; [exact Q2|]. split; [exact Q3|]. cbn [map fst fold_right]. split; [|split].
        * replace (wz' - wz) with ((wz' - wz1) + (wz1 - wz)) by ring. eapply Rle_trans; [apply Rabs_triang|]. lra.
        * destruct Q5 as [k1 Q5]. destruct (wrapR_turns 0 (th + h * rate)) as [k2 Q7].
          exists (k1 - k2)%Z. rewrite minus_IZR. lra.
        * eapply Rle_trans; [apply Rabs_triang|]. lra.
  Qed.
End Rot.

(** The bound on the angular velocity is attained. *)
Lemma rot2d_slew_example : exists e e' l,
  rot2d_spacecraft (N := XR Fin) (euler_world (N := XR Fin)) (Fin 2) (Fin 1) (Fin 1) (Fin 3) (Fin (1 / 50))
    (Fin 100) (Fin 100) (Fin 1) 0 "Euler" false (Fin 0) (Fin 0) (Fin 0) (Fin 0) (Fin 0) (Fin 0) = Ok e /\
  run (N := XR Fin) (euler_world (N := XR Fin)) e (thrusts [(2, [0; 0; 7])]) = Ok e' /\
  e_state e' = A1 (map Fin l) /\ nth 5 l 0 = Rmin 1 (1 / 50 * 100 / 1) * 2.
Proof.
  match goal with |- exists e e' l, ?c = Ok e /\ _ => destruct c as [e|] eqn:E end.
  2:{ exfalso. unfold rot2d_spacecraft, rot2d_limit, rot2d_dyn, generate_cwh_matrices, pydiv in E. revert E. xstep. discriminate. }
  assert (H1 : 0 < 1) by lra. destruct (rot2d_limits (fun x => x) _ _ _ _ _ _ _ _ _ _ _ _ _ _ _ _ _ _ _ H1 E) as (D & C1 & C2).
  replace (Rmin 1 (1 / 50 * 100 / 1)) with 1 in * by (rewrite Rmin_left; lra).
  replace (Rmin 3 (1 / 50 * 100 / 1)) with 2 in * by (rewrite Rmin_right; lra).
  destruct (rot2d_craft_inv _ _ _ _ _ _ _ _ _ _ _ _ _ _ _ _ _ _ _ E) as (qa & qv & _ & _ & _ & _ & _ & _ & Es & _).
  destruct (rot2d_euler (fun x => x) (euler_world (N := XR Fin)) 2 1 1 2 1 0 e 2 [0; 0; 0; 0; 0; 0] [0; 0; 7] ltac:(lra) ltac:(lra) ltac:(lia) false D
    eq_refl eq_refl Es [-1; -1; - (1) * 1] [1; 1; 1 * 1] C1 C2 eq_refl eq_refl) as (R1 & _ & R3).
  eexists e, _, _. split; [reflexivity|]. split; [|split; [exact R3|]].
  - cbn [thrusts map run fst snd]. change (XR (fun x => Fin x)) with (XR Fin) in *. cbn [map] in R1. rewrite R1. reflexivity.
  - cbn [nth rot2d_next rot2d_rate zipw fst snd].
    assert (C0 : clipR (- (1) * 1) (1 * 1) 7 = 1) by (unfold clipR; rewrite (Rmax_left 7), Rmin_right; lra).
    rewrite C0. unfold clipR, stopR, Rmin, Rmax. repeat destruct (Rle_dec _ _); lra.
Qed.
