(** Commands of the Dubins aircraft: each acts on its own axis within its own limits. *)
From Coq Require Import String List Bool Arith ZArith Lia Reals Lra.
From Coquelicot Require Import Coquelicot.
From Flocq Require Import Core.Core.
From Verif Require Import PyBase Num Arr BaseModel Cwh Utils SixDof Dubins Spec SpecBase SpecWrap XReal NumOrdLemmas ArrLemmas
  BaseLemmas BaseLemmas2 BaseLemmas3 BaseLemmas4 WrapLemmas XTac SpecRk SpecCwh RkLemmas CwhLemmas LimLemmas
  SpecSixDof SpecDubins DubinsLemmas SpecCommand.
Import List ListNotations.
Local Open Scope R_scope.

Lemma wrapR_angle x : - PI <= wrapR 0 x < PI /\ same_angle (wrapR 0 x) x.
Proof.
  pose proof (wrapR_range 0 x). split; [lra|]. destruct (wrapR_turns 0 x) as [k K]. exists (- k)%Z.
  rewrite opp_IZR. lra.
Qed.

Section X.
  Variable rd : R -> R.
  Local Hint Extern 0 (Num xr) => exact (XR (fun x => Fin (rd x))) : typeclass_instances.

  (** Whatever the method, the recorded derivative is that of some state under the control
      in use. *)
  Lemma dyn_step_sdot (w : world xr) d tr h s u tr' s' sd :
    dyn_step w d tr h s u = (tr', Ok (s', sd)) -> exists t x, compute_state_dot d t x u = Ok sd.
  Proof.
    unfold dyn_step. destruct (dyn__step w d tr h s u) as [tr0 r] eqn:E.
    intros H. injection H as _ H. destruct r as [[n0' sd0]|]; [|discriminate]. cbn [bind] in H.
    destruct (np_clip n0' (d_min d) (d_max d)); [|discriminate]. cbn [bind] in H.
    destruct (wrap_angles d _); [|discriminate]. cbn [bind] in H. injection H as _ <-.
    unfold dyn__step in E.
    destruct (String.eqb (d_method d) "RK45").
    { destruct (w_solve_ivp w _ _ _ _) as [sol|]; [|discriminate].
      destruct (sol_y sol); [discriminate|]. injection E as _ E.
      destruct (last_row _); [|discriminate]. cbn [bind] in E.
      destruct (compute_state_dot d h _ u) as [q|] eqn:Q; [|discriminate]. cbn [bind] in E. injection E as _ <-. eauto. }
    destruct (String.eqb (d_method d) "RK45_JAX").
    { injection E as _ E. destruct (negb _); [discriminate|]. unfold py_assert in E.
      destruct (_ <=? _)%Z; [|discriminate]. cbn [bind] in E.
      destruct (w_odeint w _ _ _); [|discriminate]. cbn [bind] in E.
      destruct (last_row _); [|discriminate]. cbn [bind] in E.
      destruct (compute_state_dot d h _ u) as [q|] eqn:Q; [|discriminate]. cbn [bind] in E. injection E as _ <-. eauto. }
    destruct (String.eqb (d_method d) "Euler"); [|discriminate].
    injection E as _ E. unfold py_assert in E. destruct (_ <=? _)%Z; [|discriminate]. cbn [bind] in E.
    destruct (compute_state_dot d _ s u) as [q|] eqn:Q; [|discriminate]. cbn [bind] in E.
    destruct (bmap2 xadd s (amap (xmul h) q)); [|discriminate]. cbn [bind] in E. injection E as _ <-. eauto.
  Qed.

  Lemma limited_choice lo hi x r : limited_dot lo hi NInf PInf x (Fin r) = Fin r \/
    limited_dot lo hi NInf PInf x (Fin r) = Fin 0.
  Proof.
    unfold limited_dot. rewrite clip1_none.
    destruct (nleb hi x); [rewrite clip_neg; unfold Rmin; destruct (Rle_dec r 0); auto|].
    destruct (nleb x lo); [rewrite clip_pos; unfold Rmax; destruct (Rle_dec r 0); auto|auto].
  Qed.

  Notation cmd_or_stop sd i r := (rate_is sd i r \/ rate_is sd i 0).

  Lemma pick l i lo hi x r : nth_error l i = Some (limited_dot lo hi NInf PInf x (Fin r)) -> cmd_or_stop (A1 l) i r.
  Proof. destruct (limited_choice lo hi x r) as [-> | ->]; [left|right]; exists l; auto. Qed.

  (** The control in use after the limits. *)
  Lemma step_control (w : world xr) e h l lo hi :
    e_cmin e = A1 (map Fin lo) -> e_cmax e = A1 (map Fin hi) -> length lo = length l -> length hi = length l ->
    o_res (entity_step w e h (AArr (A1 (map Fin l)))) = Ok tt ->
    exists t x, compute_state_dot (e_dyn e) t x (A1 (clip_list (map Fin l) (map Fin lo) (map Fin hi))) =
      Ok (e_sdot (o_entity (entity_step w e h (AArr (A1 (map Fin l)))))).
  Proof.
    intros L1 L2 N1 N2. unfold entity_step. cbn [decode_action].
    destruct (out_of_bounds _ _ _) as [b|]; [|discriminate].
    rewrite np_clip_list; [|rewrite L1; simpl; rewrite !map_length; exact N1|rewrite L2; simpl; rewrite !map_length; exact N2].
    rewrite L1, L2. cbn [expand].
    destruct (dyn_step w (e_dyn e) (e_traj e) h (e_state e) _) as [tr [[s' sd]|]] eqn:D; [|discriminate].
    intros _. cbn [o_entity with_step e_sdot]. eapply dyn_step_sdot. exact D.
  Qed.

  Lemma dubins2d_any v_min v_max samples method t x a b sd :
    compute_state_dot (dubins2d_dyn v_min v_max samples method) t x (A1 [Fin a; Fin b]) = Ok sd ->
    cmd_or_stop sd 2 a /\ cmd_or_stop sd 3 b.
  Proof.
    intros C. destruct x as [x|x].
    { unfold compute_state_dot in C. cbn in C. discriminate. }
    destruct x as [|x0 [|x1 [|x2 [|x3 [|? ?]]]]]; try (unfold compute_state_dot in C; cbn in C; discriminate).
    assert (Rw : exists r0 r1, d_raw (dubins2d_dyn v_min v_max samples method) t (A1 [x0; x1; x2; x3]) (A1 [Fin a; Fin b]) =
      Ok (A1 [r0; r1; Fin a; Fin b])).
    { cbn. do 2 eexists. apply f_equal, f_equal.
      do 2 (apply (f_equal2 cons); [reflexivity|]). do 2 (apply (f_equal2 cons); [f_equal; lra|]). reflexivity. }
    destruct Rw as (r0 & r1 & Rw). rewrite (csd_list _ _ _ _ [r0; r1; Fin a; Fin b]) in C; try reflexivity; [|exact Rw].
    injection C as <-.
    cbn [expand lim_list map dubins2d_dyn d_min d_max d_sdmin d_sdmax length repeat no_min no_max nninf npinf XR nf32 xf32].
    repeat split; eapply pick; reflexivity.
  Qed.

  Lemma dubins3d_any g v_min v_max g_min g_max r_min r_max samples method t x a b c sd :
    compute_state_dot (dubins3d_dyn g v_min v_max g_min g_max r_min r_max samples method) t x (A1 [Fin a; Fin b; Fin c]) = Ok sd ->
    cmd_or_stop sd 4 a /\ cmd_or_stop sd 5 b /\ cmd_or_stop sd 6 c.
  Proof.
    intros C. destruct x as [x|x].
    { unfold compute_state_dot in C. cbn in C. discriminate. }
    destruct x as [|x0 [|x1 [|x2 [|x3 [|x4 [|x5 [|x6 [|? ?]]]]]]]]; try (unfold compute_state_dot in C; cbn in C; discriminate).
    assert (Rw : exists r0 r1 r2 r3, d_raw (dubins3d_dyn g v_min v_max g_min g_max r_min r_max samples method) t
        (A1 [x0; x1; x2; x3; x4; x5; x6]) (A1 [Fin a; Fin b; Fin c]) = Ok (A1 [r0; r1; r2; r3; Fin a; Fin b; Fin c])).
    { cbn. do 4 eexists. apply f_equal, f_equal.
      do 4 (apply (f_equal2 cons); [reflexivity|]). do 3 (apply (f_equal2 cons); [f_equal; lra|]). reflexivity. }
    destruct Rw as (r0 & r1 & r2 & r3 & Rw). rewrite (csd_list _ _ _ _ [r0; r1; r2; r3; Fin a; Fin b; Fin c]) in C; try reflexivity; [|exact Rw].
    injection C as <-.
    cbn [expand lim_list map dubins3d_dyn d_min d_max d_sdmin d_sdmax length repeat no_min no_max nninf npinf XR nf32 xf32].
    repeat split; eapply pick; reflexivity.
  Qed.

  (** Any solver. *)
  Lemma dubins2d_command (w : world xr) samples method v_min v_max hr_min hr_max acc_min acc_max x y hd v acts e h hr acc :
    run w (dubins2d_aircraft samples method v_min v_max (Fin hr_min) (Fin hr_max) (Fin acc_min) (Fin acc_max) x y hd v) acts = Ok e ->
    let o := entity_step w e h (AArr (A1 (map Fin [hr; acc]))) in o_res o = Ok tt ->
    cmd_or_stop (e_sdot (o_entity o)) 2 (clipR hr_min hr_max hr) /\
    cmd_or_stop (e_sdot (o_entity o)) 3 (clipR acc_min acc_max acc).
  Proof.
    intros Rn o Ro. pose proof (run_config _ _ _ _ Rn) as (Ed & _ & E1 & E2 & _).
    cbn [dubins2d_aircraft mk_entity e_dyn e_cmin e_cmax] in Ed, E1, E2.
    destruct (step_control w e h [hr; acc] [hr_min; acc_min] [hr_max; acc_max] E1 E2 eq_refl eq_refl Ro) as (t & s & C).
    rewrite Ed in C. cbn [map clip_list] in C. rewrite !clip1_Fin in C. eapply dubins2d_any. exact C.
  Qed.

  Lemma dubins3d_command (w : world xr) samples method v_min v_max g_min g_max r_min r_max gr_min gr_max rr_min rr_max acc_min acc_max
      x y z hd ga ro v acts e h gr rr acc :
    run w (dubins3d_aircraft samples method v_min v_max g_min g_max r_min r_max (Fin gr_min) (Fin gr_max) (Fin rr_min) (Fin rr_max)
             (Fin acc_min) (Fin acc_max) x y z hd ga ro v) acts = Ok e ->
    let o := entity_step w e h (AArr (A1 (map Fin [gr; rr; acc]))) in o_res o = Ok tt ->
    cmd_or_stop (e_sdot (o_entity o)) 4 (clipR gr_min gr_max gr) /\
    cmd_or_stop (e_sdot (o_entity o)) 5 (clipR rr_min rr_max rr) /\
    cmd_or_stop (e_sdot (o_entity o)) 6 (clipR acc_min acc_max acc).
  Proof.
    intros Rn o Ro. pose proof (run_config _ _ _ _ Rn) as (Ed & _ & E1 & E2 & _).
    cbn [dubins3d_aircraft mk_entity e_dyn e_cmin e_cmax] in Ed, E1, E2.
    destruct (step_control w e h [gr; rr; acc] [gr_min; rr_min; acc_min] [gr_max; rr_max; acc_max] E1 E2 eq_refl eq_refl Ro) as (t & s & C).
    rewrite Ed in C. cbn [map clip_list] in C. rewrite !clip1_Fin in C. eapply dubins3d_any. exact C.
  Qed.

  (** Euler: the complete step. *)
  Lemma dubins2d_euler (w : world xr) samples v_min v_max hr_min hr_max acc_min acc_max x0 y0 hd0 v0 acts e h x y hd v hr acc :
    rd 0 = 0 -> (samples <= 0)%Z ->
    run w (dubins2d_aircraft samples "Euler" (Fin v_min) (Fin v_max) (Fin hr_min) (Fin hr_max) (Fin acc_min) (Fin acc_max) x0 y0 hd0 v0) acts = Ok e ->
    e_state e = A1 (map Fin [x; y; hd; v]) ->
    let o := entity_step w e (Fin h) (AArr (A1 (map Fin [hr; acc]))) in
    let a := stopR (rd v_min) (rd v_max) v (clipR acc_min acc_max acc) in
    o_res o = Ok tt /\
    e_sdot (o_entity o) = A1 (map Fin [v * cos hd; v * sin hd; clipR hr_min hr_max hr; a]) /\
    exists hd', - PI <= hd' < PI /\ same_angle hd' (hd + h * clipR hr_min hr_max hr) /\
      e_state (o_entity o) = A1 (map Fin [x + h * (v * cos hd); y + h * (v * sin hd); hd'; clipR (rd v_min) (rd v_max) (v + h * a)]).
  Proof.
    intros Z0 Sa Rn Es o a. pose proof (run_config _ _ _ _ Rn) as (Ed & _ & E1 & E2 & _).
    cbn [dubins2d_aircraft mk_entity e_dyn e_cmin e_cmax] in Ed, E1, E2.
    destruct (euler_list w e (Fin h) (map Fin [x; y; hd; v]) (map Fin [hr; acc])
      (map Fin [v * cos hd; v * sin hd; clipR hr_min hr_max hr; a]) [NaN; NaN; Fin 0; NaN]) as (O & Sd & St).
    all: try (rewrite Ed; try reflexivity; try exact Sa).
    all: try (exact Es || reflexivity || (rewrite E1; reflexivity) || (rewrite E2; reflexivity)).
    - rewrite E1, E2. cbn [map clip_list expand length]. rewrite !clip1_Fin.
      apply (dubins2d_csd rd v_min v_max samples "Euler" n0 x y hd v).
    - cbn. replace (0 / 1) with 0 by lra. rewrite Z0. reflexivity.
    - split; [exact O|]. split; [exact Sd|]. exists (wrapR 0 (hd + h * clipR hr_min hr_max hr)).
      destruct (wrapR_angle (hd + h * clipR hr_min hr_max hr)) as [W1 W2]. split; [exact W1|]. split; [exact W2|].
      etransitivity; [exact St|]. rewrite Ed. cbn [dubins2d_dyn d_min d_max expand map clip_list length zipw wrap_list nisnan XR xisnan nf32 xf32 nninf npinf].
      cbn [nadd nmul XR xadd xmul]. rewrite !clip1_none, clip1_Fin, wrap1_Fin. reflexivity.
  Qed.

  Lemma dubins3d_euler (w : world xr) samples v_min v_max g_min g_max r_min r_max gr_min gr_max rr_min rr_max acc_min acc_max
      x0 y0 z0 hd0 ga0 ro0 v0 acts e h x y z hd ga ro v gr rr acc :
    rd 0 = 0 -> (samples <= 0)%Z -> v <> 0 -> cos ro <> 0 ->
    run w (dubins3d_aircraft samples "Euler" (Fin v_min) (Fin v_max) (Fin g_min) (Fin g_max) (Fin r_min) (Fin r_max)
             (Fin gr_min) (Fin gr_max) (Fin rr_min) (Fin rr_max) (Fin acc_min) (Fin acc_max) x0 y0 z0 hd0 ga0 ro0 v0) acts = Ok e ->
    e_state e = A1 (map Fin [x; y; z; hd; ga; ro; v]) ->
    let o := entity_step w e (Fin h) (AArr (A1 (map Fin [gr; rr; acc]))) in
    let dga := stopR (rd g_min) (rd g_max) ga (clipR gr_min gr_max gr) in
    let dro := stopR (rd r_min) (rd r_max) ro (clipR rr_min rr_max rr) in
    let a := stopR (rd v_min) (rd v_max) v (clipR acc_min acc_max acc) in
    o_res o = Ok tt /\
    e_sdot (o_entity o) = A1 (map Fin [v * cos hd * cos ga; v * sin hd * cos ga; - v * sin ga; 32.17 / v * tan ro; dga; dro; a]) /\
    exists hd' ga' ro',
      (- PI <= hd' < PI /\ same_angle hd' (hd + h * (32.17 / v * tan ro))) /\
      (- PI <= ga' < PI /\ same_angle ga' (clipR (rd g_min) (rd g_max) (ga + h * dga))) /\
      (- PI <= ro' < PI /\ same_angle ro' (clipR (rd r_min) (rd r_max) (ro + h * dro))) /\
      e_state (o_entity o) = A1 (map Fin [x + h * (v * cos hd * cos ga); y + h * (v * sin hd * cos ga); z + h * (- v * sin ga);
        hd'; ga'; ro'; clipR (rd v_min) (rd v_max) (v + h * a)]).
  Proof.
    intros Z0 Sa Hv Hr Rn Es o dga dro a. pose proof (run_config _ _ _ _ Rn) as (Ed & _ & E1 & E2 & _).
    cbn [dubins3d_aircraft mk_entity e_dyn e_cmin e_cmax] in Ed, E1, E2.
    assert (EG : (G_FT : xr) = Fin 32.17) by (cbn; f_equal; lra). rewrite EG in Ed.
    destruct (euler_list w e (Fin h) (map Fin [x; y; z; hd; ga; ro; v]) (map Fin [gr; rr; acc])
      (map Fin [v * cos hd * cos ga; v * sin hd * cos ga; - v * sin ga; 32.17 / v * tan ro; dga; dro; a])
      [NaN; NaN; NaN; Fin 0; Fin 0; Fin 0; NaN]) as (O & Sd & St).
    all: try (rewrite Ed; try reflexivity; try exact Sa).
    all: try (exact Es || reflexivity || (rewrite E1; reflexivity) || (rewrite E2; reflexivity)).
    - rewrite E1, E2. cbn [map clip_list expand length]. rewrite !clip1_Fin.
      apply (dubins3d_csd rd 32.17 v_min v_max g_min g_max r_min r_max samples "Euler" n0 x y z hd ga ro v); assumption.
    - cbn. replace (0 / 1) with 0 by lra. rewrite Z0. reflexivity.
    - split; [exact O|]. split; [exact Sd|].
      exists (wrapR 0 (hd + h * (32.17 / v * tan ro))), (wrapR 0 (clipR (rd g_min) (rd g_max) (ga + h * dga))),
        (wrapR 0 (clipR (rd r_min) (rd r_max) (ro + h * dro))).
      split; [apply wrapR_angle|]. split; [apply wrapR_angle|]. split; [apply wrapR_angle|].
      etransitivity; [exact St|]. rewrite Ed. cbn [dubins3d_dyn d_min d_max expand map clip_list length zipw wrap_list nisnan XR xisnan nf32 xf32 nninf npinf].
      cbn [nadd nmul XR xadd xmul]. rewrite !clip1_none, !clip1_Fin, !wrap1_Fin. reflexivity.
  Qed.
End X.

Local Hint Extern 0 (Num xr) => exact (XR Fin) : typeclass_instances.

Lemma C105_ex2 (w : world xr) : exists hd' , let o := entity_step w (dubins2d_aircraft 0 "Euler" (Fin 10) (Fin 200) (Fin (-1)) (Fin 2) (Fin (-3)) (Fin 4)
    (Fin 1) (Fin 2) (Fin 0) (Fin 100)) (Fin 1) (AArr (A1 (map Fin [5; -50]))) in
  o_res o = Ok tt /\ e_sdot (o_entity o) = A1 (map Fin [100; 0; 2; -3]) /\ same_angle hd' 2 /\
  e_state (o_entity o) = A1 (map Fin [101; 2; hd'; 97]).
Proof.
  destruct (dubins2d_euler (fun x => x) w 0 10 200 (-1) 2 (-3) 4 (Fin 1) (Fin 2) (Fin 0) (Fin 100) [] _ 1 1 2 0 100 5 (-50)
    eq_refl (Z.le_refl 0) eq_refl eq_refl) as (O & Sd & hd' & _ & Sa & St).
  exists hd'. split; [exact O|]. split; [|split].
  - etransitivity; [exact Sd|]. f_equal. rewrite cos_0, sin_0. unfold stopR, clipR, Rmin, Rmax.
    repeat (destruct (Rle_dec _ _); try (exfalso; lra)); cbn [map]; fin_list; lra.
  - replace 2 with (0 + 1 * clipR (-1) 2 5); [exact Sa|]. unfold clipR, Rmin, Rmax. repeat destruct (Rle_dec _ _); lra.
  - etransitivity; [exact St|]. f_equal. rewrite cos_0, sin_0. unfold stopR, clipR, Rmin, Rmax.
    repeat (destruct (Rle_dec _ _); try (exfalso; lra)); cbn [map]; fin_list; lra.
Qed.

Lemma C105_ex3 (w : world xr) : let o := entity_step w (dubins3d_aircraft 0 "Euler" (Fin 10) (Fin 200) (Fin (-1)) (Fin 1) (Fin (-1)) (Fin 1)
    (Fin (-1/10)) (Fin (1/20)) (Fin (-1/5)) (Fin (1/4)) (Fin (-3)) (Fin 4)
    (Fin 1) (Fin 2) (Fin 3) (Fin 0) (Fin 0) (Fin (PI/4)) (Fin 100)) (Fin 1) (AArr (A1 (map Fin [5; -5; 50]))) in
  o_res o = Ok tt /\ e_sdot (o_entity o) = A1 (map Fin [100; 0; 0; 0.3217; 1/20; -1/5; 4]).
Proof.
  pose proof PI_RGT_0. pose proof PI_4.
  pose proof (fun e => dubins3d_euler (fun x => x) w 0 10 200 (-1) 1 (-1) 1 (-1/10) (1/20) (-1/5) (1/4) (-3) 4
    (Fin 1) (Fin 2) (Fin 3) (Fin 0) (Fin 0) (Fin (PI/4)) (Fin 100) [] e 1 1 2 3 0 0 (PI/4) 100 5 (-5) 50
    eq_refl (Z.le_refl 0)) as D.
  edestruct D as (O & Sd & _); [lra| |reflexivity|reflexivity|].
  - apply Rgt_not_eq, cos_gt_0; lra.
  - split; [exact O|]. etransitivity; [exact Sd|]. f_equal. rewrite cos_0, sin_0, tan_PI4. unfold stopR, clipR, Rmin, Rmax.
    repeat (destruct (Rle_dec _ _); try (exfalso; lra)); cbn [map]; fin_list; lra.
Qed.
