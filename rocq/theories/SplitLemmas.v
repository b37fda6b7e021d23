(** Splitting a step in two; steps of no duration. *)
From Coq Require Import String List Bool Arith ZArith Lia Reals Lra.
From Flocq Require Import Core.Core.
From Coquelicot Require Import Coquelicot.
From Verif Require Import PyBase Num Arr BaseModel Spec SpecBase XReal NumOrdLemmas ArrLemmas BaseLemmas
  BaseLemmas2 BaseLemmas3 BaseLemmas4 XTac Cwh Sun Rot2d SixDof Dubins Integ SpecWrap SpecRk RkLemmas SpecCwh CwhLemmas
  SpecFlow FlowLemmas GlideLemmas SpecInteg IntegLemmas SpecGlide LimLemmas CommandLemmas ConvLemmas SpecSplit.
Import List ListNotations.
Local Open Scope R_scope.

Section All.
  Context {T : Type} {N : Num T}.

  Lemma blind_raw (d : dyn T) : (forall t t' s u, d_raw d t s u = d_raw d t' s u) -> autonomous d.
  Proof. intros H t t' s u. unfold compute_state_dot. rewrite (H t t'). reflexivity. Qed.

  Lemma all_autonomous :
    (forall m n samples method d, cwh_dyn m n samples method = Ok d -> autonomous d) /\
    (forall w m i acc vel n samples method jax d, rot2d_dyn w m i acc vel n samples method jax = Ok d -> autonomous d) /\
    (forall m I vel n body samples method d, sixdof_dyn m I vel n body samples method = Ok d -> autonomous d) /\
    (forall w n method jax d, sun_dyn w n method jax = Ok d -> autonomous d) /\
    (forall m damping mode samples method d, integ_dyn m damping mode samples method = Ok d -> autonomous d) /\
    (forall v_min v_max samples method, autonomous (dubins2d_dyn v_min v_max samples method)) /\
    (forall g v_min v_max g_min g_max r_min r_max samples method,
       autonomous (dubins3d_dyn g v_min v_max g_min g_max r_min r_max samples method)).
  Proof.
    assert (Lin : forall A B samples method d, linear_dyn A B samples method = Ok d -> autonomous d).
    { intros A B sa me d. unfold linear_dyn. destruct (is_rect A (length A)); [|discriminate]. cbn [py_assert bind].
      destruct (Nat.eqb (length A) (length B)); [|discriminate]. intros H. injection H as <-. apply blind_raw. reflexivity. }
    split; [|split; [|split; [|split; [|split; [|split]]]]]; intros.
    - revert H. unfold cwh_dyn. destruct (generate_cwh_matrices m n "3d") as [[A B]|]; [|discriminate]. cbn [bind]. apply Lin.
    - revert H. unfold rot2d_dyn. destruct (jax && negb (w_jax w)); [discriminate|].
      destruct (generate_cwh_matrices m n "2d") as [[A B]|]; [|discriminate]. cbn [bind].
      destruct (is_rect A (length A)); [|discriminate]. cbn [py_assert bind].
      destruct (Nat.eqb (length A) (length B)); [|discriminate]. intros H. injection H as <-. apply blind_raw. reflexivity.
    - revert H. unfold sixdof_dyn. destruct vel as [[v0 v1] v2].
      destruct (generate_cwh_matrices m n "3d") as [[A B]|]; [|discriminate]. cbn [bind].
      destruct (is_rect A (length A)); [|discriminate]. cbn [py_assert bind].
      destruct (Nat.eqb (length A) (length B)); [|discriminate]. intros H. injection H as <-. apply blind_raw. reflexivity.
    - revert H. unfold sun_dyn, mk_dyn. destruct (_ && _); [discriminate|]. intros H. injection H as <-. apply blind_raw. reflexivity.
    - revert H. unfold integ_dyn. destruct (generate_dynamics_matrices m damping mode) as [[A B]|]; [|discriminate]. cbn [bind]. apply Lin.
    - apply blind_raw. reflexivity.
    - apply blind_raw. reflexivity.
  Qed.
End All.

Lemma shift_curve (f : xr -> arr xr -> res (arr xr)) phi a : (forall t t' x, f t x = f t' x) ->
  integral_curve f phi -> integral_curve f (fun t => phi (a + t)).
Proof.
  intros Bl Ic t. destruct (Ic (a + t)) as (ds & L1 & L2 & E & D). destruct (Ic (a + 0)) as (_ & L0 & _).
  exists ds. split; [congruence|]. split; [congruence|]. split; [rewrite (Bl (Fin t) (Fin (a + t))); exact E|].
  intros i Hi. rewrite L0 in Hi. specialize (D i Hi).
  pose proof (is_derive_comp (fun t => nth i (phi t) 0) (fun t => a + t) t (nth i ds 0) 1) as K.
  replace (nth i ds 0) with (scal 1 (nth i ds 0)) by (apply Rmult_1_l). apply K; [exact D|]. auto_derive; auto. 
Qed.

Section X.
  Variable r32 : R -> xr.
  Local Hint Extern 0 (Num xr) => exact (XR r32) : typeclass_instances.

  (** One RK45 step with a solver without error, up to the limits. *)
  Lemma exact_step (w : world xr) e h l l' phi :
    d_method (e_dyn e) = "RK45"%string ->
    fits (e_cmin e) (A1 l) -> fits (e_cmax e) (A1 l) -> np_clip (A1 l) (e_cmin e) (e_cmax e) = Ok (A1 l') ->
    exact_on w (fun t x => compute_state_dot (e_dyn e) t x (A1 l')) ->
    integral_curve (fun t x => compute_state_dot (e_dyn e) t x (A1 l')) phi ->
    e_state e = A1 (map Fin (phi 0)) ->
    let o := entity_step w e (Fin h) (AArr (A1 l)) in
    let lim := next <- np_clip (A1 (map Fin (phi h))) (d_min (e_dyn e)) (d_max (e_dyn e)) ;; wrap_angles (e_dyn e) next in
    o_res o = (_ <- lim ;; Ok tt) /\
    (forall s', lim = Ok s' -> e_state (o_entity o) = s' /\ compute_state_dot (e_dyn e) (Fin h) (A1 (map Fin (phi h))) (A1 l') = Ok (e_sdot (o_entity o))).
  Proof.
    intros H6 F1 F2 Cl X Ic Es o lim. subst o lim.
    unfold entity_step. cbn [decode_action].
    destruct (out_of_bounds_spec (A1 l) (e_cmin e) (e_cmax e) F1 F2) as (b & Eb & _).
    rewrite Eb, Cl. unfold dyn_step, dyn__step. rewrite H6. cbn [String.eqb Ascii.eqb Bool.eqb].
    rewrite Es. set (te := if (0 <? _)%Z then _ else _).
    destruct (X h te phi Ic) as (sol & rows & Q1 & Q2).
    { intros ts Ets. unfold te in Ets. destruct (0 <? d_samples (e_dyn e))%Z eqn:Sa; [|discriminate].
      injection Ets as <-. apply Z.ltb_lt in Sa. apply (t_eval_last r32). lia. }
    rewrite Q1, Q2. destruct (rows ++ [map Fin (phi h)])%list as [|r0 rs] eqn:Er; [destruct rows; discriminate|].
    rewrite <- Er. unfold last_row. rewrite rev_app_distr. cbn [rev app bind].
    destruct (Ic h) as (ds & _ & _ & C & _). rewrite C. cbn [bind].
    destruct (np_clip (A1 (map Fin (phi h))) (d_min (e_dyn e)) (d_max (e_dyn e))) as [nx|] eqn:E1; cbn [bind]; [|split; [reflexivity|discriminate]].
    destruct (wrap_angles (e_dyn e) nx) as [s2|] eqn:E2; cbn [bind]; [|split; [reflexivity|discriminate]].
    split; [reflexivity|]. intros s' Hs. injection Hs as <-. split; reflexivity.
  Qed.

  Lemma split_step (w : world xr) e h1 h2 l l' phi :
    autonomous (e_dyn e) -> d_method (e_dyn e) = "RK45"%string ->
    fits (e_cmin e) (A1 l) -> fits (e_cmax e) (A1 l) -> np_clip (A1 l) (e_cmin e) (e_cmax e) = Ok (A1 l') ->
    exact_on w (fun t x => compute_state_dot (e_dyn e) t x (A1 l')) ->
    integral_curve (fun t x => compute_state_dot (e_dyn e) t x (A1 l')) phi ->
    e_state e = A1 (map Fin (phi 0)) ->
    let o := entity_step w e (Fin (h1 + h2)) (AArr (A1 l)) in
    let o1 := entity_step w e (Fin h1) (AArr (A1 l)) in
    let o2 := entity_step w (o_entity o1) (Fin h2) (AArr (A1 l)) in
    o_res o = Ok tt -> o_res o1 = Ok tt -> e_state (o_entity o1) = A1 (map Fin (phi h1)) ->
    o_res o2 = Ok tt /\ e_state (o_entity o2) = e_state (o_entity o) /\ e_sdot (o_entity o2) = e_sdot (o_entity o).
  Proof.
    intros Au Me F1 F2 Cl X Ic Es o o1 o2 O O1 S1.
    pose proof (entity_step_config w e (Fin h1) (AArr (A1 l))) as (K1 & K2 & K3 & K4 & _). fold o1 in K1, K2, K3, K4.
    destruct (exact_step w e (h1 + h2) l l' phi Me F1 F2 Cl X Ic Es) as (R & St). fold o in R, St.
    set (e1 := o_entity o1) in *.
    assert (Ic' : integral_curve (fun t x => compute_state_dot (e_dyn e1) t x (A1 l')) (fun t => phi (h1 + t))).
    { rewrite K1. apply shift_curve; [intros; apply Au|exact Ic]. }
    assert (Es1 : e_state e1 = A1 (map Fin (phi (h1 + 0)))) by (rewrite Rplus_0_r; exact S1).
    assert (X' : exact_on w (fun t x => compute_state_dot (e_dyn e1) t x (A1 l'))) by (rewrite K1; exact X).
    rewrite <- K1 in Me. rewrite <- K3 in F1. rewrite <- K4 in F2. rewrite <- K3, <- K4 in Cl.
    destruct (exact_step w e1 h2 l l' (fun t => phi (h1 + t)) Me F1 F2 Cl X' Ic' Es1) as (R2 & St2). fold o2 in R2, St2.
    rewrite K1 in R2, St2.
    destruct (next <- np_clip _ _ _ ;; wrap_angles (e_dyn e) next) as [s'|]; [|rewrite R in O; discriminate].
    split; [rewrite R2; reflexivity|]. destruct (St s' eq_refl) as (-> & Q). destruct (St2 s' eq_refl) as (-> & Q2).
    split; [reflexivity|]. rewrite (Au (Fin h2) (Fin (h1 + h2))) in Q2. congruence.
  Qed.

  (** Any number of steps, when the dynamics have no limits. *)
  Lemma split_run (w : world xr) l l' : forall hs e phi,
    autonomous (e_dyn e) -> d_min (e_dyn e) = no_min -> d_max (e_dyn e) = no_max -> d_wrap (e_dyn e) = None -> d_method (e_dyn e) = "RK45"%string ->
    fits (e_cmin e) (A1 l) -> fits (e_cmax e) (A1 l) -> np_clip (A1 l) (e_cmin e) (e_cmax e) = Ok (A1 l') ->
    exact_on w (fun t x => compute_state_dot (e_dyn e) t x (A1 l')) ->
    integral_curve (fun t x => compute_state_dot (e_dyn e) t x (A1 l')) phi ->
    e_state e = A1 (map Fin (phi 0)) ->
    exists e', run w e (map (fun h => (Fin h, AArr (A1 l))) hs) = Ok e' /\ e_state e' = A1 (map Fin (phi (fold_right Rplus 0 hs))).
  Proof.
    induction hs as [|h hs IH]; intros e phi Au H1 H2 H5 H6 F1 F2 Cl X Ic Es; [exists e; auto|].
    destruct (exact_unlimited r32 w e h l l' phi H1 H2 H5 H6 F1 F2 Cl X Ic Es) as (O & St).
    pose proof (entity_step_config w e (Fin h) (AArr (A1 l))) as (K1 & K2 & K3 & K4 & _).
    cbn [map run fold_right]. rewrite O. cbn [bind]. set (e1 := o_entity _) in *.
    apply (IH e1 (fun t => phi (h + t))); rewrite ?K1, ?K3, ?K4; auto.
    - apply shift_curve; [intros; apply Au|exact Ic].
    - rewrite Rplus_0_r. exact St.
  Qed.

  (** Steps of no duration. *)
  Lemma add_nothing s : forall ds, length ds = length s -> zipw nadd (map Fin s) (map (nmul (Fin 0)) (map Fin ds)) = map Fin s.
  Proof.
    induction s as [|a s IH]; intros [|b ds] L; try discriminate; [reflexivity|].
    cbn [map zipw]. rewrite IH by (cbn in L; lia). f_equal. cbn. f_equal. ring.
  Qed.
  Lemma euler_rest (w : world xr) e s l l' ds :
    d_method (e_dyn e) = "Euler"%string -> (d_samples (e_dyn e) <= 0)%Z ->
    fits (e_cmin e) (A1 l) -> fits (e_cmax e) (A1 l) -> np_clip (A1 l) (e_cmin e) (e_cmax e) = Ok (A1 l') ->
    e_state e = A1 (map Fin s) -> length ds = length s ->
    compute_state_dot (e_dyn e) (Fin (0 / 1)) (A1 (map Fin s)) (A1 l') = Ok (A1 (map Fin ds)) ->
    np_clip (e_state e) (d_min (e_dyn e)) (d_max (e_dyn e)) = Ok (e_state e) -> wrap_angles (e_dyn e) (e_state e) = Ok (e_state e) ->
    let o := entity_step w e (Fin 0) (AArr (A1 l)) in
    o_res o = Ok tt /\ e_state (o_entity o) = e_state e /\ e_sdot (o_entity o) = A1 (map Fin ds).
  Proof.
    intros Me Sa F1 F2 Cl Es L Cd C W o. subst o. unfold entity_step. cbn [decode_action].
    destruct (out_of_bounds_spec (A1 l) (e_cmin e) (e_cmax e) F1 F2) as (b & Eb & _).
    rewrite Eb, Cl. unfold dyn_step, dyn__step. rewrite Me. cbn [String.eqb Ascii.eqb Bool.eqb].
    apply Z.leb_le in Sa. rewrite Sa. cbn [py_assert bind]. rewrite Es in *.
    change (@n0 xr (XR r32)) with (Fin (0 / 1)). rewrite Cd. cbn [bind amap].
    unfold bmap2. rewrite !map_length, L, Nat.eqb_refl. cbn [bind].
    change (@nadd xr (XR r32)) with (@nadd xr (XR r32)).
    rewrite add_nothing by exact L. rewrite C. cbn [bind]. rewrite W. cbn [bind]. auto.
  Qed.

  Lemma exact_rest (w : world xr) e l l' phi :
    d_method (e_dyn e) = "RK45"%string ->
    fits (e_cmin e) (A1 l) -> fits (e_cmax e) (A1 l) -> np_clip (A1 l) (e_cmin e) (e_cmax e) = Ok (A1 l') ->
    exact_on w (fun t x => compute_state_dot (e_dyn e) t x (A1 l')) ->
    integral_curve (fun t x => compute_state_dot (e_dyn e) t x (A1 l')) phi ->
    e_state e = A1 (map Fin (phi 0)) ->
    np_clip (e_state e) (d_min (e_dyn e)) (d_max (e_dyn e)) = Ok (e_state e) -> wrap_angles (e_dyn e) (e_state e) = Ok (e_state e) ->
    let o := entity_step w e (Fin 0) (AArr (A1 l)) in
    o_res o = Ok tt /\ e_state (o_entity o) = e_state e.
  Proof.
    intros Me F1 F2 Cl X Ic Es C W o. destruct (exact_step w e 0 l l' phi Me F1 F2 Cl X Ic Es) as (R & St). fold o in R, St.
    rewrite Es in C, W. rewrite C in R, St. cbn [bind] in R, St. rewrite W in R, St. split; [exact R|].
    rewrite Es. apply (St _ eq_refl).
  Qed.
End X.

Local Hint Extern 0 (Num xr) => exact (XR Fin) : typeclass_instances.

(** A planar aircraft after any history, halted for no time. *)
Lemma dub2_rest (w : world xr) samples v_min v_max hr_min hr_max acc_min acc_max x0 y0 hd0 v0 acts e x y hd v hr acc :
  (samples <= 0)%Z ->
  run w (dubins2d_aircraft samples "Euler" (Fin v_min) (Fin v_max) (Fin hr_min) (Fin hr_max) (Fin acc_min) (Fin acc_max) x0 y0 hd0 v0) acts = Ok e ->
  e_state e = A1 (map Fin [x; y; hd; v]) -> - PI <= hd < PI -> v_min <= v <= v_max ->
  let o := entity_step w e (Fin 0) (AArr (A1 (map Fin [hr; acc]))) in
  o_res o = Ok tt /\ e_state (o_entity o) = e_state e.
Proof.
  intros Sa Rn Es Hh Hv o.
  destruct (dubins2d_euler (fun x => x) w samples v_min v_max hr_min hr_max acc_min acc_max x0 y0 hd0 v0 acts e 0 x y hd v hr acc eq_refl Sa Rn Es)
    as (O & _ & hd' & Hr & Sm & St). split; [exact O|]. etransitivity; [exact St|]. rewrite Es. 
  assert (hd' = hd) as ->.
  { destruct Sm as (k & Hk). replace (hd + 0 * _) with hd in Hk by ring. 
    assert (k = 0%Z). { assert (-1 < IZR k < 1) by (pose proof PI_RGT_0; nra). 
      destruct H as [H1 H2]. apply lt_IZR in H1. apply lt_IZR in H2. lia. }
    subst k. lra. }
  rewrite !Rmult_0_l, !Rplus_0_r. rewrite (clipR_in v_min v_max v Hv). reflexivity.
Qed.

Lemma run_one (w : world xr) e h a rest r : o_res (entity_step w e h a) = Ok tt -> run w (o_entity (entity_step w e h a)) rest = r ->
  run w e ((h, a) :: rest) = r.
Proof. intros O H. cbn [run]. rewrite O. exact H. Qed.

(** Euler: two steps of 1 s are not one of 2 s. *)
Lemma euler_unsplit (w : world xr) : let e := dubins2d_aircraft 0 "Euler" (Fin 0) (Fin 10) (Fin (-4)) (Fin 4) (Fin (-1)) (Fin 1) (Fin 0) (Fin 0) (Fin 0) (Fin 1) in
  let a := AArr (A1 (map Fin [PI / 2; 0])) in
  exists e1 e2 y1 h1 y2 h2,
    run w e [(Fin (1 + 1), a)] = Ok e1 /\ run w e [(Fin 1, a); (Fin 1, a)] = Ok e2 /\
    e_state e1 = A1 (map Fin [2; y1; h1; 1]) /\ e_state e2 = A1 (map Fin [1; y2; h2; 1]).
Proof.
  intros e a. pose proof PI_RGT_0. pose proof PI_4.
  assert (C1 : clipR (-4) 4 (PI / 2) = PI / 2) by (apply clipR_in; lra).
  assert (C2 : clipR (-1) 1 0 = 0) by (apply clipR_in; lra).
  assert (S1 : stopR 0 10 1 0 = 0) by (apply stopR_free; lra).
  assert (V : forall h, clipR 0 10 (1 + h * 0) = 1) by (intros h; rewrite Rmult_0_r, Rplus_0_r; apply clipR_in; lra).
  destruct (dubins2d_euler (fun x => x) w 0 0 10 (-4) 4 (-1) 1 (Fin 0) (Fin 0) (Fin 0) (Fin 1) [] e (1 + 1) 0 0 0 1 (PI / 2) 0 eq_refl (Z.le_refl 0) eq_refl eq_refl)
    as (O1 & _ & hA & _ & _ & St1).
  destruct (dubins2d_euler (fun x => x) w 0 0 10 (-4) 4 (-1) 1 (Fin 0) (Fin 0) (Fin 0) (Fin 1) [] e 1 0 0 0 1 (PI / 2) 0 eq_refl (Z.le_refl 0) eq_refl eq_refl)
    as (O2 & _ & hB & _ & Sm & St2).
  rewrite C2, S1, !V, cos_0, sin_0 in *. 
  set (e1 := o_entity (entity_step w e (Fin 1) a)).
  assert (R1 : run w e [(Fin 1, a)] = Ok e1).
  { exact (run_one w e (Fin 1) a [] _ O2 eq_refl). }
  destruct (dubins2d_euler (fun x => x) w 0 0 10 (-4) 4 (-1) 1 (Fin 0) (Fin 0) (Fin 0) (Fin 1) [(Fin 1, a)] e1 1 _ _ _ _ (PI / 2) 0 eq_refl (Z.le_refl 0) R1 St2)
    as (O3 & _ & hC & _ & _ & St3).
  destruct (turn_cos _ _ Sm) as (Cc & _). rewrite C1 in Cc. replace (0 + 1 * (PI / 2)) with (PI / 2) in Cc by ring. rewrite cos_PI2 in Cc.
  rewrite C2, S1, V, Cc in St3.
  rewrite !Rplus_0_l, !Rmult_1_l, !Rmult_1_r, ?Rmult_0_r, ?Rplus_0_r in St1. rewrite !Rplus_0_l, !Rmult_1_l, ?Rmult_0_r, ?Rplus_0_r in St3.
  do 2 eexists. exists 0, hA. do 2 eexists.
  split; [exact (run_one w e (Fin (1 + 1)) a [] _ O1 eq_refl)|].
  split; [apply (run_one w e (Fin 1) a _ _ O2); exact (run_one w e1 (Fin 1) a [] _ O3 eq_refl)|].
  split; [etransitivity; [exact St1|reflexivity]|exact St3].
Qed.

Lemma split_ex : exists e,
  integrator1d_body (Fin 2) (Fin 0) 0 "RK45" (Fin 0) (Fin 0) = Ok e /\
  let a := AArr (A1 (map Fin [5])) in
  let o := entity_step (glide_world 2 0 1) e (Fin (1 + 3)) a in
  let o1 := entity_step (glide_world 2 0 1) e (Fin 1) a in
  let o2 := entity_step (glide_world 2 0 1) (o_entity o1) (Fin 3) a in
  e_state (o_entity o1) = A1 (map Fin [1 / 4; 1 / 2]) /\
  e_state (o_entity o2) = e_state (o_entity o) /\ e_state (o_entity o) = A1 (map Fin [4; 2]) /\
  e_sdot (o_entity o2) = e_sdot (o_entity o).
Proof.
  destruct (integ_ok Fin 2 0 "1d" 1 0 "RK45" ltac:(lra) ltac:(left; auto)) as (d & E & Q1 & Q2 & _ & _ & Q5 & Q6 & _).
  unfold integrator1d_body. rewrite E. cbn [bind]. eexists. split; [reflexivity|].
  match goal with |- context [entity_step _ ?x _ _] => set (e := x) end.
  set (a := AArr (A1 (map Fin [5]))). set (o := entity_step _ e (Fin (1 + 3)) _). set (o1 := entity_step _ e (Fin 1) _). set (o2 := entity_step _ _ (Fin 3) _).
  assert (X : exact_on (glide_world 2 0 1) (fun t x => compute_state_dot (e_dyn e) t x (A1 (map Fin [1])))).
  { exact (glide_world_exact Fin 2 0 "1d" 1 0 "RK45" d [1] ltac:(lra) ltac:(left; auto) E eq_refl). }
  assert (Ic : integral_curve (fun t x => compute_state_dot (e_dyn e) t x (A1 (map Fin [1]))) (glide 2 0 [0] [0] [1])).
  { intros t. exact (glide_solves Fin 2 0 "1d" 1 0 "RK45" d [0] [0] [1] ltac:(lra) ltac:(left; auto) E eq_refl eq_refl eq_refl t). }
  assert (Cl : np_clip (A1 (map Fin [5])) (e_cmin e) (e_cmax e) = Ok (A1 (map Fin [1]))).
  { cbn [e e_cmin e_cmax mk_entity]. change (@nZ xr (XR Fin) (-1)) with (Fin (-1/1)). change (@n1 xr (XR Fin)) with (Fin (1/1)).
    replace (-1/1) with (-1) by field. replace (1/1) with 1 by field. rewrite np_clip_scalar. cbn [map].
    unfold clipR. rewrite Rmax_left, Rmin_right by lra. reflexivity. }
  assert (Z : e_state e = A1 (map Fin (glide 2 0 [0] [0] [1] 0))) by (rewrite (glide_zero 2 0 1) by reflexivity; reflexivity).
  assert (G : forall t, glide 2 0 [0] [0] [1] t = [t * t / 4; t / 2]).
  { intros t. unfold glide, glide_p, glide_v. cbn [map combine zipw fst snd app]. destruct (Req_EM_T 0 0); [|lra].
    f_equal; [field|f_equal; field]. }
  assert (Us : forall h, let o := entity_step (glide_world 2 0 1) e (Fin h) a in o_res o = Ok tt /\ e_state (o_entity o) = A1 (map Fin (glide 2 0 [0] [0] [1] h))).
  { intros h. apply (exact_unlimited Fin (glide_world 2 0 1) e h (map Fin [5]) (map Fin [1])); auto; exact Logic.I. }
  destruct (Us 1) as (O1 & S1). destruct (Us (1 + 3)) as (O & St).
  destruct (split_step Fin (glide_world 2 0 1) e 1 3 (map Fin [5]) (map Fin [1]) (glide 2 0 [0] [0] [1])) as (_ & K2 & K3); auto.
  1: exact (proj1 (proj2 (proj2 (proj2 (proj2 all_autonomous)))) _ _ _ _ _ _ E).
  1, 2: exact Logic.I.
  split; [etransitivity; [exact S1|]; rewrite G; replace (1 * 1 / 4) with (1 / 4) by field; reflexivity|].
  split; [exact K2|]. split; [etransitivity; [exact St|]; rewrite G; replace ((1 + 3) * (1 + 3) / 4) with 4 by field; replace ((1 + 3) / 2) with 2 by field; reflexivity|]. exact K3.
Qed.
