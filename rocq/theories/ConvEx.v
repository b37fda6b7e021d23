(** Examples of C107. *)
From Coq Require Import String List Bool Arith ZArith Lia Reals Lra.
From Flocq Require Import Core.Core.
From Coquelicot Require Import Coquelicot.
From Verif Require Import PyBase Num Arr BaseModel Cwh Dubins Rot2d Spec SpecBase SpecWrap XReal XTac SpecRk SpecCwh LimLemmas
  WrapLemmas SpecFlow Rot2dLemmas RotProps ConvLemmas ConvRot.
Import List ListNotations.
Local Open Scope R_scope.
Local Hint Extern 0 (Num xr) => exact (XR Fin) : typeclass_instances.

Lemma conv_ex2 : forall (w : world xr) k, (0 < k)%nat -> exists e' x' y' hd',
  run w (dubins2d_aircraft 0 "Euler" (Fin 10) (Fin 200) (Fin (-1)) (Fin 1) (Fin (-3)) (Fin 3) (Fin 0) (Fin 0) (Fin 0) (Fin 100))
    (repeat (Fin (10 / INR k), AArr (A1 (map Fin [1 / 10; 0]))) k) = Ok e' /\
  e_state e' = A1 (map Fin [x'; y'; hd'; 100]) /\ same_angle hd' 1 /\
  Rabs (x' - 1000 * sin 1) <= 1000 / INR k /\ Rabs (y' - 1000 * (1 - cos 1)) <= 1000 / INR k.
Proof.
  intros w k Hk. assert (NP : 0 < INR k) by (apply lt_0_INR; lia).
  destruct (dub2_converges w 0 10 200 (-1) 1 (-3) 3 (Fin 0) (Fin 0) (Fin 0) (Fin 100) [] _ 0 0 0 100 (1 / 10) 0 10 100
    (fun t => 1000 * sin (1 / 10 * t)) (fun t => 1000 * (1 - cos (1 / 10 * t))) (Z.le_refl 0) eq_refl eq_refl) with (k := k)
    as (e' & x' & y' & hd' & R1 & S1 & A1' & X1 & Y1); try lra; auto.
  - intros t _. lra.
  - intros t _. rewrite Rabs_pos_eq; lra.
  - rewrite Rmult_0_r, sin_0. ring.
  - rewrite Rmult_0_r, cos_0. ring.
  - intros t _. auto_derive; [exact I|]. rewrite Rplus_0_l. field.
  - intros t _. auto_derive; [exact I|]. rewrite Rplus_0_l. field.
  - exists e', x', y', hd'. replace (100 + 0 * 10) with 100 in S1 by ring. replace (0 + 1 / 10 * 10) with 1 in A1' by field.
    replace (1 / 10 * 10) with 1 in X1, Y1 by field. rewrite Rabs_R0, (Rabs_pos_eq (1 / 10)) in X1, Y1 by lra.
    replace ((0 + 100 * (1 / 10)) * 10 * (10 / INR k)) with (1000 / INR k) in X1, Y1 by (field; lra). auto.
Qed.

Lemma conv_ex3 : forall (w : world xr) (px py : R -> R), px 0 = 0 -> py 0 = 0 ->
  (forall t, 0 <= t <= 10 -> is_derive px t ((100 + 1 * t) * cos (32.17 * (ln (100 + t) - ln 100)) * cos (0 + 0 * t))) ->
  (forall t, 0 <= t <= 10 -> is_derive py t ((100 + 1 * t) * sin (32.17 * (ln (100 + t) - ln 100)) * cos (0 + 0 * t))) ->
  exists K, forall k, (0 < k)%nat -> exists e' x' y' z' hd' hd,
  run w (dubins3d_aircraft 0 "Euler" (Fin 10) (Fin 200) (Fin (-1)) (Fin 1) (Fin (-1)) (Fin 1)
    (Fin (-1/10)) (Fin (1/20)) (Fin (-1/5)) (Fin (1/4)) (Fin (-3)) (Fin 4) (Fin 0) (Fin 0) (Fin 0) (Fin 0) (Fin 0) (Fin (PI/4)) (Fin 100))
    (repeat (Fin (10 / INR k), AArr (A1 (map Fin [0; 0; 1]))) k) = Ok e' /\
  e_state e' = A1 (map Fin [x'; y'; z'; hd'; 0; PI / 4; 110]) /\
  same_angle hd' hd /\ Rabs (hd - 32.17 * (ln 110 - ln 100)) <= K / INR k /\
  Rabs (x' - px 10) <= K / INR k /\ Rabs (y' - py 10) <= K / INR k.
Proof.
  intros w px py X0 Y0 DX DY. pose proof PI_RGT_0. pose proof PI_4. 
  assert (P3 : 3 < PI) by (pose proof PI2_3_2; lra).
  set (c := cos (PI / 4)). assert (Hc : 0 < c) by (apply cos_gt_0; lra).
  set (turn := 32.17 * (Rabs 1 / (100 * 100 * c) + Rabs 0 / (100 * (c * c)))).
  set (move := Rabs 1 + 110 * (32.17 / (100 * c) + Rabs 0) + 110 * turn * 10).
  exists (Rmax (turn * 10 * 10) (move * 10 * 10)). intros k Hk. assert (NP : 0 < INR k) by (apply lt_0_INR; lia).
  destruct (dub3_converges w 0 10 200 (-1) 1 (-1) 1 (-1/10) (1/20) (-1/5) (1/4) (-3) 4 (Fin 0) (Fin 0) (Fin 0) (Fin 0) (Fin 0) (Fin (PI/4)) (Fin 100)
    [] _ 0 0 0 0 0 (PI/4) 100 0 0 1 10 110 100 c px py (fun _ => 0) (fun t => 32.17 * (ln (100 + t) - ln 100)) (Z.le_refl 0) eq_refl eq_refl) with (k := k)
    as (e' & x' & y' & z' & hd' & hd & R1 & S1 & A1' & H1 & X1 & Y1 & Z1); try lra; auto.
  - intros t Ht. lra.
  - intros t Ht. lra.
  - intros t Ht. rewrite Rmult_0_l, Rplus_0_r. split; [lra|]. unfold c. lra.
  - split; [exact X0|]. split; [exact Y0|]. split; [reflexivity|]. rewrite Rplus_0_r. ring.
  - intros t Ht. replace (- (100 + 1 * t) * sin (0 + 0 * t)) with 0; [apply @is_derive_const|].
    replace (0 + 0 * t) with 0 by ring. rewrite sin_0. ring.
  - intros t Ht. rewrite Rmult_0_l, Rplus_0_r, tan_PI4. auto_derive; [lra|]. field. lra.
  - exists e', x', y', z', hd', hd. replace (0 + 0 * 10) with 0 in S1 by ring. rewrite Rmult_0_l, Rplus_0_r in S1.
    replace (100 + 1 * 10) with 110 in S1 by ring. replace (100 + 10) with 110 in H1 by ring.
    fold turn in H1, X1, Y1. fold move in X1, Y1.
    assert (K1 : turn * 10 * (10 / INR k) <= Rmax (turn * 10 * 10) (move * 10 * 10) / INR k).
    { replace (turn * 10 * (10 / INR k)) with (turn * 10 * 10 / INR k) by (field; lra). apply Rmult_le_compat_r; [left; apply Rinv_0_lt_compat, NP|apply Rmax_l]. }
    assert (K2 : move * 10 * (10 / INR k) <= Rmax (turn * 10 * 10) (move * 10 * 10) / INR k).
    { replace (move * 10 * (10 / INR k)) with (move * 10 * 10 / INR k) by (field; lra). apply Rmult_le_compat_r; [left; apply Rinv_0_lt_compat, NP|apply Rmax_r]. }
    split; [exact R1|]. split; [exact S1|]. split; [exact A1'|]. 
    repeat split; eapply Rle_trans; eassumption.
Qed.

Lemma conv_exr : exists e0 K, 
  rot2d_spacecraft (euler_world (N := XR Fin)) (Fin 2) (Fin 1) (Fin 1) (Fin 3) (Fin (1 / 50)) (Fin 100) (Fin 100) (Fin 0) 0 "Euler" false
    (Fin 0) (Fin 0) (Fin 0) (Fin 0) (Fin 0) (Fin 1) = Ok e0 /\
  forall k, (0 < k)%nat -> exists e' x' y' th' ths vx' vy',
    run (euler_world (N := XR Fin)) e0 (repeat (Fin (PI / INR k), AArr (A1 (map Fin [1; 0; 0]))) k) = Ok e' /\
    e_state e' = A1 (map Fin [x'; y'; th'; vx'; vy'; 1]) /\ same_angle th' ths /\
    within (K * (PI / INR k)) [x'; y'; ths; vx'; vy'] [1; PI / 2; PI; 0; 1].
Proof.
  match goal with |- exists e0 K, ?c = Ok e0 /\ _ => destruct c as [e0|] eqn:E end.
  2:{ exfalso. unfold rot2d_spacecraft, rot2d_limit, rot2d_dyn, generate_cwh_matrices, pydiv in E. revert E. xstep. discriminate. }
  pose proof PI_RGT_0.
  destruct (rot2d_craft_inv _ _ _ _ _ _ _ _ _ _ _ _ _ _ _ _ _ _ _ E) as (qa & qv & _ & _ & _ & _ & _ & _ & Es & _).
  assert (Q1 : Rmin 1 (1 / 50 * 100 / 1) = 1) by (rewrite Rmin_left; lra).
  assert (Q2 : Rmin 3 (1 / 50 * 100 / 1) = 2) by (rewrite Rmin_right; lra).
  destruct (rot_converges (euler_world (N := XR Fin)) 2 1 1 3 (1/50) 100 100 0 0 false (Fin 0) (Fin 0) (Fin 0) (Fin 0) (Fin 0) (Fin 1)
    e0 e0 [] 0 0 0 0 0 1 1 0 0 PI ltac:(lra) ltac:(lra) (Z.le_refl 0) E eq_refl Es) with
    (px := fun t => (1 - cos t) / 2) (py := fun t => (t - sin t) / 2) (pu := fun t => sin t / 2) (pv := fun t => (1 - cos t) / 2) as (K & HK);
    rewrite ?Q1, ?Q2; try lra.
  - intros t Ht. lra.
  - rewrite cos_0, sin_0. lra.
  - intros t _. auto_derive; [exact I|field].
  - intros t _. auto_derive; [exact I|field].
  - intros t _. replace (0 + 1 * t + 0 / 1 * t^2 / 2) with t by field. auto_derive; [exact I|field].
  - intros t _. replace (0 + 1 * t + 0 / 1 * t^2 / 2) with t by field. auto_derive; [exact I|field].
  - exists e0, K. split; [reflexivity|]. intros k Hk. destruct (HK k Hk) as (e' & x' & y' & th' & ths & vx' & vy' & R1 & S1 & A1' & W).
    exists e', x', y', th', ths, vx', vy'. split; [exact R1|]. split; [|split; [exact A1'|]].
    + replace (1 + 0 / 1 * PI) with 1 in S1 by field. exact S1.
    + rewrite cos_PI, sin_PI in W. replace ((1 - -1) / 2) with 1 in W by field. replace ((PI - 0) / 2) with (PI / 2) in W by field.
      replace (0 / 2) with 0 in W by field. replace (0 + 1 * PI + 0 / 1 * PI^2 / 2) with PI in W by field. exact W.
Qed.
