(** Turning flight of the Dubins aircraft. *)
From Coq Require Import String List Bool Arith ZArith Lia Reals Lra.
From Flocq Require Import Core.Core.
From Coquelicot Require Import Coquelicot.
From Verif Require Import PyBase Num Arr BaseModel Spec SpecBase SpecWrap XReal NumOrdLemmas ArrLemmas BaseLemmas
  BaseLemmas2 BaseLemmas3 BaseLemmas4 XTac WrapLemmas SpecRk SpecCwh RkLemmas Cwh CwhLemmas LimLemmas
  Dubins DubinsLemmas SpecFlow.
Import List ListNotations.
Local Open Scope R_scope.

Lemma stopR_0 lo hi x : stopR lo hi x 0 = 0.
Proof. unfold stopR, Rmin, Rmax. repeat destruct (Rle_dec _ _); lra. Qed.
Lemma len4 (s : list R) : length s = 4%nat -> exists a b c d, s = [a; b; c; d].
Proof. destruct s as [|a [|b [|c [|d []]]]]; try discriminate. eauto. Qed.
Lemma len7 (s : list R) : length s = 7%nat -> exists a b c d e f g, s = [a; b; c; d; e; f; g].
Proof. destruct s as [|a [|b [|c [|d [|e [|f [|g []]]]]]]]; try discriminate. intros _. eauto 10. Qed.

(** Two functions with the same derivative and the same initial value are equal. *)
Lemma same_derive (f g : R -> R) (d : R -> R) : (forall t, is_derive f t (d t)) -> (forall t, is_derive g t (d t)) ->
  f 0 = g 0 -> forall t, f t = g t.
Proof.
  intros Hf Hg H0 t.
  assert (Q : f t - g t = f 0 - g 0).
  { apply (const_of_derive (fun t => f t - g t)). intros u. evar_last.
    - apply (is_derive_minus f g); [apply Hf|apply Hg].
    - unfold minus, plus, opp; simpl. ring. }
  lra.
Qed.

Lemma circle2d x y psi v om t : om <> 0 ->
  (nth 0 (turn2d x y psi v om t) 0 - (x - v / om * sin psi))^2 + (nth 1 (turn2d x y psi v om t) 0 - (y + v / om * cos psi))^2
  = (v / om)^2.
Proof.
  intros Ho. cbn [turn2d nth]. pose proof (sin2_cos2 (psi + om * t)) as Q. unfold Rsqr in Q.
  set (s := sin (psi + om * t)) in *. set (c := cos (psi + om * t)) in *. set (k := v / om).
  transitivity (k^2 * (s * s + c * c)); [ring|rewrite Q; ring].
Qed.
Lemma circle3d x y z psi ga ro v om t : om <> 0 ->
  (nth 0 (turn3d x y z psi ga ro v om t) 0 - (x - v * cos ga / om * sin psi))^2 +
  (nth 1 (turn3d x y z psi ga ro v om t) 0 - (y + v * cos ga / om * cos psi))^2 = (v * cos ga / om)^2.
Proof.
  intros Ho. cbn [turn3d nth]. pose proof (sin2_cos2 (psi + om * t)) as Q. unfold Rsqr in Q.
  set (s := sin (psi + om * t)) in *. set (c := cos (psi + om * t)) in *. set (k := v * cos ga / om).
  transitivity (k^2 * (s * s + c * c)); [ring|rewrite Q; ring].
Qed.
Lemma turn2d_0 x y psi v om : om <> 0 -> turn2d x y psi v om 0 = [x; y; psi; v].
Proof. intros Ho. unfold turn2d. rewrite Rmult_0_r, Rplus_0_r. fin_list; field; auto. Qed.
Lemma full_circle2d x y psi v om : om <> 0 ->
  turn2d x y psi v om (2 * PI / om) = [x; y; psi + 2 * PI; v].
Proof.
  intros Ho. unfold turn2d. replace (om * (2 * PI / om)) with (2 * PI) by (field; auto).
  rewrite sin_plus, cos_plus, sin_2PI, cos_2PI. fin_list; field; auto.
Qed.
Lemma full_circle3d x y z psi ga ro v om : om <> 0 ->
  turn3d x y z psi ga ro v om (2 * PI / om) = [x; y; z - v * sin ga * (2 * PI / om); psi + 2 * PI; ga; ro; v].
Proof.
  intros Ho. unfold turn3d. replace (om * (2 * PI / om)) with (2 * PI) by (field; auto).
  rewrite sin_plus, cos_plus, sin_2PI, cos_2PI. fin_list; field; auto.
Qed.

Section X.
  Variable rd : R -> R.
  Local Hint Extern 0 (Num xr) => exact (XR (fun x => Fin (rd x))) : typeclass_instances.

  Lemma turn2d_solves v_min v_max samples method x y psi v om : om <> 0 ->
    solves (dubins2d_dyn (Fin v_min) (Fin v_max) samples method) (A1 (map Fin [om; 0])) (turn2d x y psi v om).
  Proof.
    intros Ho t. unfold turn2d.
    eexists. split; [reflexivity|]. split; [|split; [apply (dubins2d_csd rd)|]]; [reflexivity|].
    rewrite stopR_0. cbn [length]. intros i Hi.
    destruct i as [|[|[|[|i]]]]; [..|lia]; cbn [nth]; auto_derive; auto; field; auto.
  Qed.
  Lemma straight2d_solves v_min v_max samples method x y psi v :
    solves (dubins2d_dyn (Fin v_min) (Fin v_max) samples method) (A1 (map Fin [0; 0]))
      (fun t => [x + v * cos psi * t; y + v * sin psi * t; psi; v]).
  Proof.
    intros t.
    eexists. split; [reflexivity|]. split; [|split; [apply (dubins2d_csd rd)|]]; [reflexivity|].
    rewrite stopR_0. cbn [length]. intros i Hi.
    destruct i as [|[|[|[|i]]]]; [..|lia]; cbn [nth]; auto_derive; auto; ring.
  Qed.

  Lemma dubins2d_solution v_min v_max samples method om sol : length (sol 0) = 4%nat ->
    solves (dubins2d_dyn (Fin v_min) (Fin v_max) samples method) (A1 (map Fin [om; 0])) sol ->
    let g := fun i t => nth i (sol t) 0 in
    (forall t, sol t = [g 0%nat t; g 1%nat t; g 2%nat t; g 3%nat t]) /\
    (forall t, is_derive (g 0%nat) t (g 3%nat t * cos (g 2%nat t))) /\ (forall t, is_derive (g 1%nat) t (g 3%nat t * sin (g 2%nat t))) /\
    (forall t, is_derive (g 2%nat) t om) /\ (forall t, is_derive (g 3%nat) t 0).
  Proof.
    intros L0 S g.
    assert (G : forall t, sol t = [g 0%nat t; g 1%nat t; g 2%nat t; g 3%nat t] /\
      is_derive (g 0%nat) t (g 3%nat t * cos (g 2%nat t)) /\ is_derive (g 1%nat) t (g 3%nat t * sin (g 2%nat t)) /\
      is_derive (g 2%nat) t om /\ is_derive (g 3%nat) t 0).
    { intros t. destruct (S t) as (ds & Lt & Ld & E & D). rewrite L0 in *. unfold g in *. clear g.
      destruct (len4 _ Lt) as (x & y & psi & v & Et). rewrite Et in E.
      rewrite (dubins2d_csd rd) in E. apply Ok_Fin_inj in E. subst ds. rewrite stopR_0 in D.
      split; [rewrite Et; reflexivity|]. rewrite Et.
      pose proof (D 0%nat ltac:(lia)). pose proof (D 1%nat ltac:(lia)). pose proof (D 2%nat ltac:(lia)). pose proof (D 3%nat ltac:(lia)).
      repeat (split; [assumption|]); assumption. }
    refine (conj _ (conj _ (conj _ (conj _ _)))); intros t; apply (G t).
  Qed.

  Lemma turn2d_unique v_min v_max samples method om sol x y psi v : om <> 0 -> sol 0 = [x; y; psi; v] ->
    solves (dubins2d_dyn (Fin v_min) (Fin v_max) samples method) (A1 (map Fin [om; 0])) sol ->
    forall t, sol t = turn2d x y psi v om t.
  Proof.
    intros Ho I0 S. destruct (dubins2d_solution _ _ _ _ _ sol ltac:(rewrite I0; reflexivity) S) as (F & D0 & D1 & D2 & D3).
    cbv zeta in *. set (g := fun i t => nth i (sol t) 0) in *.
    assert (V : forall t, g 3%nat t = v).
    { intros t. transitivity (g 3%nat 0); [exact (const_of_derive (g 3%nat) D3 t)|]. unfold g. rewrite I0. reflexivity. }
    assert (P : forall t, g 2%nat t = psi + om * t).
    { apply (same_derive _ _ (fun _ => om) D2).
      - intros t. auto_derive; auto; ring.
      - unfold g. rewrite I0. cbn. ring. }
    assert (X : forall t, g 0%nat t = x + v / om * (sin (psi + om * t) - sin psi)).
    { apply (same_derive _ _ (fun t => v * cos (psi + om * t))).
      - intros t. rewrite <- (V t), <- (P t). apply D0.
      - intros t. auto_derive; auto; field; auto.
      - unfold g. rewrite I0. cbn. rewrite Rmult_0_r, Rplus_0_r. ring. }
    assert (Y : forall t, g 1%nat t = y - v / om * (cos (psi + om * t) - cos psi)).
    { apply (same_derive _ _ (fun t => v * sin (psi + om * t))).
      - intros t. rewrite <- (V t), <- (P t). apply D1.
      - intros t. auto_derive; auto; field; auto.
      - unfold g. rewrite I0. cbn. rewrite Rmult_0_r, Rplus_0_r. ring. }
    intros t. transitivity [g 0%nat t; g 1%nat t; g 2%nat t; g 3%nat t]; [exact (F t)|].
    rewrite X, Y, P, V. reflexivity.
  Qed.
  Lemma straight2d_unique v_min v_max samples method sol x y psi v : sol 0 = [x; y; psi; v] ->
    solves (dubins2d_dyn (Fin v_min) (Fin v_max) samples method) (A1 (map Fin [0; 0])) sol ->
    forall t, sol t = [x + v * cos psi * t; y + v * sin psi * t; psi; v].
  Proof.
    intros I0 S. destruct (dubins2d_solution _ _ _ _ _ sol ltac:(rewrite I0; reflexivity) S) as (F & D0 & D1 & D2 & D3).
    cbv zeta in *. set (g := fun i t => nth i (sol t) 0) in *.
    assert (V : forall t, g 3%nat t = v).
    { intros t. transitivity (g 3%nat 0); [exact (const_of_derive (g 3%nat) D3 t)|]. unfold g. rewrite I0. reflexivity. }
    assert (P : forall t, g 2%nat t = psi).
    { intros t. transitivity (g 2%nat 0); [exact (const_of_derive (g 2%nat) D2 t)|]. unfold g. rewrite I0. reflexivity. }
    assert (X : forall t, g 0%nat t = x + v * cos psi * t).
    { apply (same_derive _ _ (fun t => v * cos psi)).
      - intros t. rewrite <- (V t), <- (P t). apply D0.
      - intros t. auto_derive; auto; ring.
      - unfold g. rewrite I0. cbn. ring. }
    assert (Y : forall t, g 1%nat t = y + v * sin psi * t).
    { apply (same_derive _ _ (fun t => v * sin psi)).
      - intros t. rewrite <- (V t), <- (P t). apply D1.
      - intros t. auto_derive; auto; ring.
      - unfold g. rewrite I0. cbn. ring. }
    intros t. transitivity [g 0%nat t; g 1%nat t; g 2%nat t; g 3%nat t]; [exact (F t)|].
    rewrite X, Y, P, V. reflexivity.
  Qed.

  (** 3d: the turn rate is g tan(roll) / v. *)
  Lemma turn3d_solves g v_min v_max g_min g_max r_min r_max samples method x y z psi ga ro v :
    v <> 0 -> cos ro <> 0 -> g / v * tan ro <> 0 ->
    solves (dubins3d_dyn (Fin g) (Fin v_min) (Fin v_max) (Fin g_min) (Fin g_max) (Fin r_min) (Fin r_max) samples method)
      (A1 (map Fin [0; 0; 0])) (turn3d x y z psi ga ro v (g / v * tan ro)).
  Proof.
    intros Hv Hr Ho t. set (om := g / v * tan ro) in *. unfold turn3d.
    eexists. split; [reflexivity|]. split; [|split; [apply (dubins3d_csd rd); auto|]]; [reflexivity|].
    rewrite !stopR_0. cbn [length]. intros i Hi. fold om.
    destruct i as [|[|[|[|[|[|[|i]]]]]]]; [..|lia]; cbn [nth]; auto_derive; auto; try (field; auto; fail).
    unfold SpecDubins.turn_rate. fold om. ring.
  Qed.
  Lemma turn3d_unique g v_min v_max g_min g_max r_min r_max samples method sol x y z psi ga ro v :
    v <> 0 -> cos ro <> 0 -> g / v * tan ro <> 0 -> sol 0 = [x; y; z; psi; ga; ro; v] ->
    (forall t, nth 6 (sol t) 0 <> 0 /\ cos (nth 5 (sol t) 0) <> 0) ->
    solves (dubins3d_dyn (Fin g) (Fin v_min) (Fin v_max) (Fin g_min) (Fin g_max) (Fin r_min) (Fin r_max) samples method)
      (A1 (map Fin [0; 0; 0])) sol ->
    forall t, sol t = turn3d x y z psi ga ro v (g / v * tan ro) t.
  Proof.
    intros Hv Hr Ho I0 R S.
    set (f := fun i t => nth i (sol t) 0).
    assert (L0 : length (sol 0) = 7%nat) by (rewrite I0; reflexivity).
    assert (G : forall t, sol t = [f 0%nat t; f 1%nat t; f 2%nat t; f 3%nat t; f 4%nat t; f 5%nat t; f 6%nat t] /\
      is_derive (f 0%nat) t (f 6%nat t * cos (f 3%nat t) * cos (f 4%nat t)) /\
      is_derive (f 1%nat) t (f 6%nat t * sin (f 3%nat t) * cos (f 4%nat t)) /\
      is_derive (f 2%nat) t (- f 6%nat t * sin (f 4%nat t)) /\
      is_derive (f 3%nat) t (g / f 6%nat t * tan (f 5%nat t)) /\
      is_derive (f 4%nat) t 0 /\ is_derive (f 5%nat) t 0 /\ is_derive (f 6%nat) t 0).
    { intros t. destruct (S t) as (ds & Lt & Ld & E & D). rewrite L0 in *. destruct (R t) as [R1 R2]. unfold f in *. clear f.
      destruct (len7 _ Lt) as (a & b & c & d & e & h & i & Et). rewrite Et in E, R1, R2. cbn [nth] in R1, R2.
      rewrite (dubins3d_csd rd) in E by auto. apply Ok_Fin_inj in E. subst ds. rewrite !stopR_0 in D.
      split; [rewrite Et; reflexivity|]. rewrite Et.
      pose proof (D 0%nat ltac:(lia)). pose proof (D 1%nat ltac:(lia)). pose proof (D 2%nat ltac:(lia)). pose proof (D 3%nat ltac:(lia)).
      pose proof (D 4%nat ltac:(lia)). pose proof (D 5%nat ltac:(lia)). pose proof (D 6%nat ltac:(lia)).
      repeat (split; [assumption|]); assumption. }
    assert (V : forall t, f 6%nat t = v).
    { intros t. transitivity (f 6%nat 0); [apply (const_of_derive (f 6%nat)); intros u; apply (G u)|]. unfold f. rewrite I0. reflexivity. }
    assert (RO : forall t, f 5%nat t = ro).
    { intros t. transitivity (f 5%nat 0); [apply (const_of_derive (f 5%nat)); intros u; apply (G u)|]. unfold f. rewrite I0. reflexivity. }
    assert (GA : forall t, f 4%nat t = ga).
    { intros t. transitivity (f 4%nat 0); [apply (const_of_derive (f 4%nat)); intros u; apply (G u)|]. unfold f. rewrite I0. reflexivity. }
    set (om := g / v * tan ro) in *.
    assert (P : forall t, f 3%nat t = psi + om * t).
    { apply (same_derive _ _ (fun _ => om)).
      - intros t. unfold om. rewrite <- (V t), <- (RO t). apply (G t).
      - intros t. auto_derive; auto; ring.
      - unfold f. rewrite I0. cbn. ring. }
    assert (X : forall t, f 0%nat t = x + v * cos ga / om * (sin (psi + om * t) - sin psi)).
    { apply (same_derive _ _ (fun t => v * cos (psi + om * t) * cos ga)).
      - intros t. rewrite <- (V t), <- (P t), <- (GA t). apply (G t).
      - intros t. auto_derive; auto; field; auto.
      - unfold f. rewrite I0. cbn. rewrite Rmult_0_r, Rplus_0_r. ring. }
    assert (Y : forall t, f 1%nat t = y - v * cos ga / om * (cos (psi + om * t) - cos psi)).
    { apply (same_derive _ _ (fun t => v * sin (psi + om * t) * cos ga)).
      - intros t. rewrite <- (V t), <- (P t), <- (GA t). apply (G t).
      - intros t. auto_derive; auto; field; auto.
      - unfold f. rewrite I0. cbn. rewrite Rmult_0_r, Rplus_0_r. ring. }
    assert (Z : forall t, f 2%nat t = z - v * sin ga * t).
    { apply (same_derive _ _ (fun t => - v * sin ga)).
      - intros t. rewrite <- (V t), <- (GA t). apply (G t).
      - intros t. auto_derive; auto; ring.
      - unfold f. rewrite I0. cbn. ring. }
    intros t. transitivity [f 0%nat t; f 1%nat t; f 2%nat t; f 3%nat t; f 4%nat t; f 5%nat t; f 6%nat t]; [apply (G t)|].
    rewrite X, Y, Z, P, GA, RO, V. reflexivity.
  Qed.
End X.

(** ** Steps with a solver that makes no error *)
Section Y.
  Variable rd : R -> R.
  Local Hint Extern 0 (Num xr) => exact (XR (fun x => Fin (rd x))) : typeclass_instances.

  Lemma dubins2d_exact_step (w : world xr) v_min v_max samples (e : entity xr) h x y psi v om hlo hhi alo ahi : rd 0 = 0 -> om <> 0 ->
    e_dyn e = dubins2d_dyn (Fin v_min) (Fin v_max) samples "RK45" ->
    e_cmin e = A1 (map Fin [hlo; alo]) -> e_cmax e = A1 (map Fin [hhi; ahi]) ->
    hlo <= om <= hhi -> alo <= 0 <= ahi -> rd v_min <= v <= rd v_max ->
    exact_on w (fun t x => compute_state_dot (e_dyn e) t x (A1 (map Fin [om; 0]))) ->
    e_state e = A1 (map Fin [x; y; psi; v]) ->
    let o := entity_step w e (Fin h) (AArr (A1 (map Fin [om; 0]))) in
    o_res o = Ok tt /\
    exists psi', e_state (o_entity o) = A1 (map Fin
      [nth 0 (turn2d x y psi v om h) 0; nth 1 (turn2d x y psi v om h) 0; psi'; v]) /\
      same_angle psi' (psi + om * h).
  Proof.
    intros Z0 Ho D C1 C2 H1 H2 Hv X Es o. subst o.
    unfold entity_step. cbn [decode_action].
    destruct (out_of_bounds_spec (A1 (map Fin [om; 0])) (e_cmin e) (e_cmax e)) as (b & Eb & _);
      [rewrite C1; reflexivity|rewrite C2; reflexivity|].
    rewrite Eb.
    rewrite np_clip_list by (rewrite ?C1, ?C2; reflexivity).
    rewrite C1, C2. cbn [expand clip_list map]. rewrite !clip1_Fin, !clipR_id by lra.
    unfold dyn_step, dyn__step.
    assert (Me : d_method (e_dyn e) = "RK45"%string) by (rewrite D; reflexivity). rewrite Me.
    cbn [String.eqb Ascii.eqb Bool.eqb]. set (te := if (0 <? _)%Z then _ else _). rewrite Es.
    destruct (X h te (turn2d x y psi v om)) as (sol & rows & Q1 & Q2).
    - intros t. destruct (turn2d_solves rd v_min v_max samples "RK45" x y psi v om Ho t) as (ds & Q).
      exists ds. rewrite D. exact Q.
    - intros ts Ets. unfold te in Ets. destruct (0 <? d_samples (e_dyn e))%Z eqn:Sa; [|discriminate].
      injection Ets as <-. apply Z.ltb_lt in Sa. apply (t_eval_last (fun x => Fin (rd x))). lia.
    - replace (turn2d x y psi v om 0) with [x; y; psi; v] in Q1
        by (unfold turn2d; rewrite Rmult_0_r, Rplus_0_r; fin_list; field; auto).
      cbn [map] in Q1 |- *. rewrite Q1, Q2.
      set (q := map Fin (turn2d x y psi v om h)).
      destruct (rows ++ [q])%list as [|r0 rs] eqn:Er; [destruct rows; discriminate|].
      rewrite <- Er. unfold last_row. rewrite rev_app_distr. cbn [rev app bind].
      assert (Cs : compute_state_dot (e_dyn e) (Fin h) (A1 q) (A1 [Fin om; Fin 0]) =
                   Ok (A1 (map Fin [v * cos (psi + om * h); v * sin (psi + om * h); om; stopR (rd v_min) (rd v_max) v 0]))).
      { rewrite D. unfold q, turn2d. apply (dubins2d_csd rd). }
      rewrite Cs. cbn [bind].
      rewrite np_clip_list by (rewrite D; reflexivity). cbn [bind].
      rewrite (wrap_angles_list (e_dyn e) (map nf32 [nnan; nnan; n0; nnan])).
      + cbn [bind o_res o_entity with_step e_state]. split; [reflexivity|].
        exists (wrapR 0 (psi + om * h)).
        replace (d_min (e_dyn e)) with (A1 [NInf; NInf; NInf; Fin (rd v_min)]) by (rewrite D; reflexivity).
        replace (d_max (e_dyn e)) with (A1 [PInf; PInf; PInf; Fin (rd v_max)]) by (rewrite D; reflexivity).
        unfold q, turn2d. cbn [map length expand clip_list nth].
        rewrite (n0_Fin (fun x => Fin (rd x))).
        cbn [wrap_list nf32 nisnan XR xf32 xisnan nnan].
        rewrite Z0, !(clip1_none (fun x => Fin (rd x))), (clip1_Fin (fun x => Fin (rd x))), clipR_id, (wrap1_Fin (fun x => Fin (rd x))) by lra.
        split; [reflexivity|]. destruct (wrapR_turns 0 (psi + om * h)) as (k & Qk). exists (- k)%Z. rewrite opp_IZR. lra.
      + rewrite D. reflexivity.
      + rewrite D. reflexivity.
  Qed.

  Lemma turn2d_turn x y a b v om t : same_angle a b ->
    nth 0 (turn2d x y a v om t) 0 = nth 0 (turn2d x y b v om t) 0 /\ nth 1 (turn2d x y a v om t) 0 = nth 1 (turn2d x y b v om t) 0.
  Proof.
    intros (k & ->). cbn [turn2d nth].
    assert (P : forall c, sin (c + 2 * PI * IZR k) = sin c /\ cos (c + 2 * PI * IZR k) = cos c).
    { intros c. assert (Q : same_angle (c + 2 * PI * IZR k) c) by (exists k; reflexivity).
      destruct (turn_cos _ _ Q). auto. }
    replace (b + 2 * PI * IZR k + om * t) with (b + om * t + 2 * PI * IZR k) by ring.
    destruct (P b) as [-> ->]. destruct (P (b + om * t)) as [-> ->]. auto.
  Qed.

  Lemma dubins2d_exact_run (w : world xr) v_min v_max samples v om hlo hhi alo ahi : rd 0 = 0 -> om <> 0 ->
    hlo <= om <= hhi -> alo <= 0 <= ahi -> rd v_min <= v <= rd v_max ->
    exact_on w (fun t x => compute_state_dot (dubins2d_dyn (Fin v_min) (Fin v_max) samples "RK45") t x (A1 (map Fin [om; 0]))) ->
    forall hs (e : entity xr) x y psi,
    e_dyn e = dubins2d_dyn (Fin v_min) (Fin v_max) samples "RK45" ->
    e_cmin e = A1 (map Fin [hlo; alo]) -> e_cmax e = A1 (map Fin [hhi; ahi]) ->
    e_state e = A1 (map Fin [x; y; psi; v]) ->
    exists e' psi', run w e (map (fun h => (Fin h, AArr (A1 (map Fin [om; 0])))) hs) = Ok e' /\
      let T := fold_right Rplus 0 hs in
      e_state e' = A1 (map Fin [nth 0 (turn2d x y psi v om T) 0; nth 1 (turn2d x y psi v om T) 0; psi'; v]) /\
      same_angle psi' (psi + om * T).
  Proof.
    intros Z0 Ho H1 H2 Hv X. induction hs as [|h hs IH]; intros e x y psi D C1 C2 Es.
    - exists e, psi. split; [reflexivity|]. cbn [fold_right]. cbv zeta. split.
      + rewrite Es. do 2 f_equal. cbn [turn2d nth]. rewrite Rmult_0_r, Rplus_0_r. fin_list; field; auto.
      + exists 0%Z. lra.
    - rewrite map_cons. set (al := map _ hs). cbn [run].
      destruct (dubins2d_exact_step w v_min v_max samples e h x y psi v om hlo hhi alo ahi Z0 Ho D C1 C2 H1 H2 Hv
        ltac:(rewrite D; exact X) Es) as (R1 & p1 & R2 & R3).
      cbv zeta in R1, R2. set (o := entity_step w e (Fin h) (AArr (A1 (map Fin [om; 0])))) in *.
      destruct (entity_step_config w e (Fin h) (AArr (A1 (map Fin [om; 0])))) as (G1 & G2 & G3 & G4 & G5).
      fold o in G1, G2, G3, G4, G5. rewrite R1.
      destruct (IH (o_entity o) (nth 0 (turn2d x y psi v om h) 0) (nth 1 (turn2d x y psi v om h) 0) p1
        ltac:(congruence) ltac:(congruence) ltac:(congruence) R2) as (e' & p2 & Q1 & Q2 & Q3).
      exists e', p2. split; [exact Q1|]. cbn [fold_right]. cbv zeta in Q2, Q3 |- *. set (T := fold_right Rplus 0 hs) in *.
      split.
      + rewrite Q2. destruct (turn2d_turn (nth 0 (turn2d x y psi v om h) 0) (nth 1 (turn2d x y psi v om h) 0) _ _ v om T R3) as [-> ->].
        cbn [turn2d nth]. replace (psi + om * h + om * T) with (psi + om * (h + T)) by ring. do 2 f_equal. fin_list; ring.
      + destruct R3 as (k & Rk). destruct Q3 as (j & Qj). exists (k + j)%Z. rewrite Qj, Rk, plus_IZR. ring.
  Qed.

  (** A solver without error for steady turns. *)
  Definition turn_world : world xr :=
    {| w_solve_ivp := fun f h s te =>
         match f (Fin 0) s, s with
         | Ok (A1 [_; _; Fin om; _]), A1 [Fin x; Fin y; Fin psi; Fin v] =>
             Ok {| sol_t := [h]; sol_y := [map Fin (turn2d x y psi v om (real_of h))]; sol_success := true |}
         | _, _ => Err ValueError
         end;
       w_odeint := fun _ _ _ => Err ValueError;
       w_jax := false |}.
  Lemma turn_world_exact v_min v_max samples method om : om <> 0 ->
    exact_on turn_world (fun t x => compute_state_dot (dubins2d_dyn (Fin v_min) (Fin v_max) samples method) t x (A1 (map Fin [om; 0]))).
  Proof.
    intros Ho h te phi I _.
    assert (L0 : length (phi 0) = 4%nat).
    { destruct (I 0) as (ds & _ & _ & E & _). revert E. generalize (phi 0) as l. clear. intros l.
      unfold compute_state_dot. cbn [d_raw dubins2d_dyn]. unfold affine_raw, dubins2d_f.
      destruct l as [|a [|b [|c [|d []]]]]; cbn; try discriminate; auto. }
    assert (S : solves (dubins2d_dyn (Fin v_min) (Fin v_max) samples method) (A1 (map Fin [om; 0])) phi).
    { intros t. destruct (I t) as (ds & Q). exists ds. exact Q. }
    destruct (len4 _ L0) as (x & y & psi & v & E0).
    cbn [w_solve_ivp turn_world]. rewrite E0.
    pose proof (dubins2d_csd rd v_min v_max samples method (Fin 0) x y psi v om 0) as Cs. cbn [map] in Cs |- *. rewrite Cs.
    eexists _, []. split; [reflexivity|]. cbn [sol_y app real_of]. do 2 f_equal.
    symmetry. apply (turn2d_unique rd v_min v_max samples method om phi x y psi v Ho E0 S h).
  Qed.
End Y.
