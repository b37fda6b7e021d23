(** The Dubins aircraft over exact reals with rounding [rd] for binary32 casts. *)
From Coq Require Import String List Bool Arith ZArith Lia Reals Lra.
From Coquelicot Require Import Coquelicot.
From Flocq Require Import Core.Core.
From Verif Require Import PyBase Num Arr BaseModel Cwh Utils SixDof Dubins Spec SpecBase SpecWrap XReal NumOrdLemmas ArrLemmas
  BaseLemmas BaseLemmas2 BaseLemmas3 BaseLemmas4 WrapLemmas XTac SpecRk SpecCwh RkLemmas CwhLemmas LimLemmas
  SpecSixDof SpecDubins.
Import List ListNotations.
Local Open Scope R_scope.

Section X.
  Variable rd : R -> R.
  Local Hint Extern 0 (Num xr) => exact (XR (fun x => Fin (rd x))) : typeclass_instances.

  Lemma dubins2d_csd v_min v_max samples method t x y hd v hr acc :
    compute_state_dot (dubins2d_dyn (Fin v_min) (Fin v_max) samples method) t
      (A1 (map Fin [x; y; hd; v])) (A1 (map Fin [hr; acc])) =
    Ok (A1 (map Fin [v * cos hd; v * sin hd; hr; stopR (rd v_min) (rd v_max) v acc])).
  Proof.
    erewrite csd_list with (r := map Fin [v * cos hd; v * sin hd; hr; acc]).
    2-6: reflexivity.
    - cbn [expand lim_list map dubins2d_dyn d_min d_max d_sdmin d_sdmax length repeat no_min no_max nf32 XR xf32 nninf npinf].
      rewrite !limited_inf, limited_state. reflexivity.
    - cbn. fin_list; lra.
  Qed.

  Lemma xtan_ok a : cos a <> 0 -> xtan (Fin a) = Fin (tan a).
  Proof. intros H. cbn. rewrite Req_bool_false by exact H. reflexivity. Qed.

  Lemma dubins3d_csd g v_min v_max g_min g_max r_min r_max samples method t x y z hd ga ro v u0 u1 u2 :
    v <> 0 -> cos ro <> 0 ->
    compute_state_dot (dubins3d_dyn (Fin g) (Fin v_min) (Fin v_max) (Fin g_min) (Fin g_max) (Fin r_min) (Fin r_max) samples method) t
      (A1 (map Fin [x; y; z; hd; ga; ro; v])) (A1 (map Fin [u0; u1; u2])) =
    Ok (A1 (map Fin [v * cos hd * cos ga; v * sin hd * cos ga; - v * sin ga; turn_rate g v ro;
                     stopR (rd g_min) (rd g_max) ga u0; stopR (rd r_min) (rd r_max) ro u1;
                     stopR (rd v_min) (rd v_max) v u2])).
  Proof.
    intros Hv Hr.
    erewrite csd_list with (r := map Fin [v * cos hd * cos ga; v * sin hd * cos ga; - v * sin ga; turn_rate g v ro; u0; u1; u2]).
    2-6: reflexivity.
    - cbn [expand lim_list map dubins3d_dyn d_min d_max d_sdmin d_sdmax length repeat no_min no_max nf32 XR xf32 nninf npinf].
      rewrite !limited_inf, !limited_state. reflexivity.
    - unfold dubins3d_dyn, d_raw, affine_raw, dubins3d_f. cbn [map ntan XR]. rewrite xtan_ok by exact Hr. cbn.
      rewrite Req_bool_false by exact Hv. cbn. unfold turn_rate. fin_list; field; auto.
  Qed.

  (** ** Velocity and orientation *)
  Lemma d2_velocity_nose e x y hd v : e_state e = A1 (map Fin [x; y; hd; v]) ->
    d2_velocity e = Ok (A1 (map (fun r => Fin (rd r)) (vec_list (scale3 v (nose hd 0))))).
  Proof.
    intros E. unfold d2_velocity, d2_v, d2_heading, aidx. rewrite E. cbn.
    replace (0 / 1) with 0 by field. fin_list; f_equal; field.
  Qed.
  Lemma d3_velocity_nose e x y z hd ga ro v : e_state e = A1 (map Fin [x; y; z; hd; ga; ro; v]) ->
    d3_velocity e = Ok (A1 (map (fun r => Fin (rd r)) (vec_list (scale3 v (nose hd ga))))).
  Proof.
    intros E. unfold d3_velocity, d3_v, d3_heading, d3_gamma, aidx. rewrite E. cbn.
    fin_list; f_equal; field.
  Qed.

  Lemma nose_unit hd ga : dot3 (nose hd ga) (nose hd ga) = 1.
  Proof.
    pose proof (sin2_cos2 hd) as A. pose proof (sin2_cos2 ga) as B. unfold Rsqr in A, B. cbn.
    replace (cos hd * cos ga * (cos hd * cos ga) + sin hd * cos ga * (sin hd * cos ga) + - sin ga * - sin ga)
      with ((sin hd * sin hd + cos hd * cos hd) * (cos ga * cos ga) + sin ga * sin ga) by ring.
    rewrite A. lra.
  Qed.

  Lemma half_angle a : cos a = cos (a / 2) * cos (a / 2) - sin (a / 2) * sin (a / 2) /\
    sin a = 2 * sin (a / 2) * cos (a / 2) /\ sin (a / 2) * sin (a / 2) + cos (a / 2) * cos (a / 2) = 1.
  Proof.
    pose proof (sin2_cos2 (a / 2)) as A. unfold Rsqr in A.
    split; [|split; [|exact A]].
    - rewrite <- cos_2a. f_equal. field.
    - rewrite <- sin_2a. f_equal. field.
  Qed.

  Definition zyx (hd ga ro : R) : quat :=
    let c a := cos (a / 2) in let s a := sin (a / 2) in
    qmul (qmul ((0, 0, s hd), c hd) ((0, s ga, 0), c ga)) ((s ro, 0, 0), c ro).
  Lemma zyx_unit hd ga ro : qnorm2 (zyx hd ga ro) = 1.
  Proof.
    destruct (half_angle hd) as (_ & _ & A). destruct (half_angle ga) as (_ & _ & B). destruct (half_angle ro) as (_ & _ & C).
    transitivity ((sin (hd / 2) * sin (hd / 2) + cos (hd / 2) * cos (hd / 2)) *
      (sin (ga / 2) * sin (ga / 2) + cos (ga / 2) * cos (ga / 2)) * (sin (ro / 2) * sin (ro / 2) + cos (ro / 2) * cos (ro / 2))).
    - unfold qnorm2, zyx, qmul. cbn. ring.
    - rewrite A, B, C. ring.
  Qed.
  Lemma zyx_nose hd ga ro : rotate (zyx hd ga ro) (1, 0, 0) = nose hd ga.
  Proof.
    destruct (half_angle hd) as (A1' & A2 & A). destruct (half_angle ga) as (B1 & B2 & B). destruct (half_angle ro) as (_ & _ & C).
    pose proof (zyx_unit hd ga ro) as U. unfold nose. rewrite A1', A2, B1, B2.
    assert (R1 : forall x y z w, x * x + y * y + z * z + w * w = 1 ->
      rotate ((x, y, z), w) (1, 0, 0) = (w * w + x * x - y * y - z * z, 2 * (x * y + z * w), 2 * (x * z - y * w))).
    { intros x y z w H. cbn. f_equal; [f_equal|]; try ring. lra. }
    destruct (zyx hd ga ro) as [[[x y] z] w] eqn:E. rewrite R1 by exact U.
    unfold zyx, qmul in E. cbn in E. injection E as <- <- <- <-. clear - A B C.
    revert A B C. generalize (cos (hd / 2)) (sin (hd / 2)) (cos (ga / 2)) (sin (ga / 2)) (cos (ro / 2)) (sin (ro / 2)).
    intros c1 s1 c2 s2 c3 s3 A B C.
    assert (K : forall p q, p = (s3 * s3 + c3 * c3) * q -> p = q) by (intros p q ->; rewrite C; ring).
    f_equal; [f_equal|]; apply K; try ring.
    (* third: needs the heading norm as well *)
    transitivity ((s1 * s1 + c1 * c1) * ((s3 * s3 + c3 * c3) * - (2 * s2 * c2))); [ring|rewrite A; ring].
  Qed.

  Lemma from_euler_fin hd ga ro : from_euler_zyx (Fin hd) (Fin ga) (Fin ro) = fin4 (zyx hd ga ro).
  Proof.
    unfold from_euler_zyx, hamilton_product. cbn [ndiv nZ XR xdiv nlit].
    rewrite !Req_bool_false by lra. replace (2 / 1) with 2 by field.
    unfold zyx, qmul. cbn.
    repeat match goal with
           | |- (_, _) = (_, _) => apply (f_equal2 pair)
           | |- Fin _ = Fin _ => apply (f_equal Fin)
           end; field.
  Qed.

  Lemma d2_orientation_fin e x y hd v : e_state e = A1 (map Fin [x; y; hd; v]) -> d2_orientation e = Ok (fin4 (zyx hd 0 0)).
  Proof.
    intros E. unfold d2_orientation, d2_heading, aidx. rewrite E. cbn [map nth_error bind].
    rewrite (n0_Fin (fun x => Fin (rd x))), from_euler_fin. reflexivity.
  Qed.
  Lemma d3_orientation_fin e x y z hd ga ro v : e_state e = A1 (map Fin [x; y; z; hd; ga; ro; v]) ->
    d3_orientation e = Ok (fin4 (zyx hd ga ro)).
  Proof.
    intros E. unfold d3_orientation, d3_heading, d3_gamma, d3_roll, aidx. rewrite E. cbn [map nth_error bind].
    rewrite from_euler_fin. reflexivity.
  Qed.

  (** ** Reported acceleration *)
  Lemma d2_acceleration_fin e x y hd v a b c d : e_state e = A1 (map Fin [x; y; hd; v]) ->
    e_sdot e = A1 (map Fin [a; b; c; d]) -> v <> 0 ->
    d2_acceleration e = Ok (A1 (map (fun r => Fin (d * (rd r / v))) (vec_list (scale3 v (nose hd 0))))).
  Proof.
    intros E S Hv. unfold d2_acceleration. rewrite (d2_velocity_nose _ _ _ _ _ E). unfold d2_v, aidx. rewrite E, S.
    cbn. rewrite !Req_bool_false by exact Hv. reflexivity.
  Qed.
  Lemma d3_acceleration_fin e x y z hd ga ro v d0 d1 d2 d3 d4 d5 d6 : e_state e = A1 (map Fin [x; y; z; hd; ga; ro; v]) ->
    e_sdot e = A1 (map Fin [d0; d1; d2; d3; d4; d5; d6]) -> v <> 0 ->
    d3_acceleration e = Ok (A1 (map (fun r => Fin (d6 * (rd r / v))) (vec_list (scale3 v (nose hd ga))))).
  Proof.
    intros E S Hv. unfold d3_acceleration. rewrite (d3_velocity_nose _ _ _ _ _ _ _ _ E). unfold d3_v, aidx. rewrite E, S.
    cbn. rewrite !Req_bool_false by exact Hv. reflexivity.
  Qed.

  (** ** Whole turns *)
  Lemma dubins2d_turn v_min v_max samples method a b : same_angle a b ->
    let d := dubins2d_dyn v_min v_max samples method in
    forall t x y v u,
      compute_state_dot d t (A1 [x; y; Fin a; v]) u = compute_state_dot d t (A1 [x; y; Fin b; v]) u.
  Proof.
    intros S d t x y v u. destruct (turn_cos _ _ S) as [Ec Es]. unfold compute_state_dot.
    assert (R : d_raw d t (A1 [x; y; Fin a; v]) u = d_raw d t (A1 [x; y; Fin b; v]) u).
    { cbn [d d_raw dubins2d_dyn]. unfold affine_raw, dubins2d_f, dubins2d_g. cbn [ncos nsin XR xfun]. rewrite Ec, Es. reflexivity. }
    rewrite R. destruct (d_raw d t (A1 [x; y; Fin b; v]) u) as [r|]; [|reflexivity]. cbn [bind].
    destruct (clip_state_dot_direct d r) as [r'|]; [|reflexivity]. reflexivity.
  Qed.
  Lemma dubins3d_turn g v_min v_max g_min g_max r_min r_max samples method a b : same_angle a b ->
    let d := dubins3d_dyn g v_min v_max g_min g_max r_min r_max samples method in
    forall t x y z ga ro v u,
      compute_state_dot d t (A1 [x; y; z; Fin a; ga; ro; v]) u = compute_state_dot d t (A1 [x; y; z; Fin b; ga; ro; v]) u.
  Proof.
    intros S d t x y z ga ro v u. destruct (turn_cos _ _ S) as [Ec Es]. unfold compute_state_dot.
    assert (R : d_raw d t (A1 [x; y; z; Fin a; ga; ro; v]) u = d_raw d t (A1 [x; y; z; Fin b; ga; ro; v]) u).
    { cbn [d d_raw dubins3d_dyn]. unfold affine_raw, dubins3d_f, dubins3d_g. cbn [ncos nsin XR xfun]. rewrite Ec, Es. reflexivity. }
    rewrite R. destruct (d_raw d t (A1 [x; y; z; Fin b; ga; ro; v]) u) as [r|]; [|reflexivity]. cbn [bind].
    destruct (clip_state_dot_direct d r) as [r'|]; [|reflexivity]. reflexivity.
  Qed.

  Lemma dubins2d_shape (v_min v_max : xr) samples method t x y hd v u r :
    compute_state_dot (dubins2d_dyn v_min v_max samples method) t (A1 [x; y; hd; v]) u = Ok r ->
    exists sd, r = A1 sd /\ length sd = 4%nat.
  Proof.
    intros H. set (d := dubins2d_dyn _ _ _ _) in *.
    destruct (d_raw d t (A1 [x; y; hd; v]) u) as [raw|] eqn:R.
    - assert (exists l, raw = A1 l /\ length l = 4%nat) as (l & -> & L).
      { revert R. cbn [d d_raw dubins2d_dyn]. unfold affine_raw, dubins2d_f, dubins2d_g. cbn [bind].
        unfold matvec. destruct u as [|u]; [discriminate|]. destruct (forallb _ _); [|discriminate]. cbn [bind].
        cbn [map bmap2 length Nat.eqb zipw]. intros Q. injection Q as <-. eexists; split; reflexivity. }
      erewrite csd_list in H; [|..|exact R]; try reflexivity; try (exact L).
      destruct l as [|? [|? [|? [|? []]]]]; try discriminate.
      injection H as <-. eexists; split; reflexivity.
    - unfold compute_state_dot in H. rewrite R in H. discriminate.
  Qed.
  Lemma dubins3d_shape (g v_min v_max g_min g_max r_min r_max : xr) samples method t x y z hd ga ro v u r :
    compute_state_dot (dubins3d_dyn g v_min v_max g_min g_max r_min r_max samples method) t (A1 [x; y; z; hd; ga; ro; v]) u = Ok r ->
    exists sd, r = A1 sd /\ length sd = 7%nat.
  Proof.
    intros H. set (d := dubins3d_dyn _ _ _ _ _ _ _ _ _) in *.
    destruct (d_raw d t (A1 [x; y; z; hd; ga; ro; v]) u) as [raw|] eqn:R.
    - assert (exists l, raw = A1 l /\ length l = 7%nat) as (l & -> & L).
      { revert R. cbn [d d_raw dubins3d_dyn]. unfold affine_raw, dubins3d_f, dubins3d_g. cbn [bind].
        unfold matvec. destruct u as [|u]; [discriminate|]. destruct (forallb _ _); [|discriminate]. cbn [bind].
        cbn [map bmap2 length Nat.eqb zipw]. intros Q. injection Q as <-. eexists; split; reflexivity. }
      erewrite csd_list in H; [|..|exact R]; try reflexivity; try (exact L).
      destruct l as [|? [|? [|? [|? [|? [|? [|? []]]]]]]]; try discriminate.
      injection H as <-. eexists; split; reflexivity.
    - unfold compute_state_dot in H. rewrite R in H. discriminate.
  Qed.

  Lemma dubins2d_turn_run (w : world xr) v_min v_max samples e a b x y v acts : rd 0 = 0 ->
    e_dyn e = dubins2d_dyn v_min v_max samples "Euler" -> same_angle a b ->
    e_state e = A1 [x; y; Fin a; v] -> acts <> [] ->
    run w (set_state e (A1 [x; y; Fin b; v])) acts = run w e acts.
  Proof.
    intros Z E S Es Ne.
    eapply euler_same; try rewrite E; try eassumption; try reflexivity.
    - intros t u. symmetry. apply (dubins2d_turn _ _ _ _ a b S).
    - intros t u r. apply dubins2d_shape.
    - intros h sd L. destruct sd as [|? [|? [|? [|? []]]]]; try discriminate.
      cbn [map zipw clip_list wrap_list]. rewrite (n0_Fin (fun x => Fin (rd x))). cbn [nf32 nisnan XR xf32 xisnan nnan nninf npinf nadd nmul].
      rewrite Z, (wrap_turn (fun x => Fin (rd x)) a b _ S). reflexivity.
  Qed.
  Lemma dubins3d_turn_run (w : world xr) g v_min v_max g_min g_max r_min r_max samples e a b x y z ga ro v acts : rd 0 = 0 ->
    e_dyn e = dubins3d_dyn g v_min v_max g_min g_max r_min r_max samples "Euler" -> same_angle a b ->
    e_state e = A1 [x; y; z; Fin a; ga; ro; v] -> acts <> [] ->
    run w (set_state e (A1 [x; y; z; Fin b; ga; ro; v])) acts = run w e acts.
  Proof.
    intros Z E S Es Ne.
    eapply euler_same; try rewrite E; try eassumption; try reflexivity.
    - intros t u. symmetry. apply (dubins3d_turn _ _ _ _ _ _ _ _ _ a b S).
    - intros t u r. apply dubins3d_shape.
    - intros h sd L. destruct sd as [|? [|? [|? [|? [|? [|? [|? []]]]]]]]; try discriminate.
      cbn [map zipw clip_list wrap_list]. rewrite (n0_Fin (fun x => Fin (rd x))). cbn [nf32 nisnan XR xf32 xisnan nnan nninf npinf nadd nmul].
      rewrite Z, (wrap_turn (fun x => Fin (rd x)) a b _ S). reflexivity.
  Qed.

  (** ** Displacement *)
  Lemma add_fin a b r : xadd a b = Fin r -> exists x y, a = Fin x /\ b = Fin y /\ r = x + y.
  Proof. destruct a, b; cbn; try discriminate. intros H. injection H as <-. eauto. Qed.
  Lemma mul_fin a b r : xmul a b = Fin r -> exists x y, a = Fin x /\ b = Fin y /\ r = x * y.
  Proof.
    destruct a as [p| | |], b as [q| | |]; cbn; try discriminate; try (unfold xinf_mul; destruct (Req_bool _ _); [discriminate|];
      destruct (Bool.eqb _ _); discriminate).
    intros H. injection H as <-. eauto.
  Qed.
  Lemma fun_fin f a r : xfun f a = Fin r -> exists x, a = Fin x /\ r = f x.
  Proof. destruct a; cbn; try discriminate. intros H. injection H as <-. eauto. Qed.
  Lemma clip_fin y r : clip1 y NInf PInf = Fin r -> y = Fin r.
  Proof. destruct y; cbn; try discriminate; auto. Qed.
  Lemma limited_fin x y r : limited_dot NInf PInf NInf PInf (Fin x) y = Fin r -> y = Fin r.
  Proof.
    unfold limited_dot. change (nleb PInf (Fin x)) with false. change (nleb (Fin x) NInf) with false. apply clip_fin.
  Qed.

  Section Disp.
    Variables (pos : entity xr -> vec -> Prop) (inv : entity xr -> Prop) (w : world xr) (V : R).
    Hypothesis Step : forall e h a p', inv e -> o_res (entity_step w e h a) = Ok tt -> pos (o_entity (entity_step w e h a)) p' ->
      exists p q hh, pos e p /\ h = Fin hh /\ p' = add3 p (scale3 hh q) /\ dot3 q q <= V^2.
    Hypothesis Inv : forall e h a, inv e -> o_res (entity_step w e h a) = Ok tt -> inv (o_entity (entity_step w e h a)).
    Hypothesis Pos : forall e p q, pos e p -> pos e q -> p = q.
    Hypothesis HV : 0 <= V.

    Lemma cauchy (a b : vec) : dot3 a b <= norm3 a * norm3 b.
    Proof.
      unfold norm3. rewrite <- sqrt_mult_alt.
      2:{ destruct a as [[a1 a2] a3]. cbn. nra. }
      apply Rle_trans with (Rabs (dot3 a b)); [apply Rle_abs|]. rewrite <- sqrt_Rsqr_abs. apply sqrt_le_1_alt.
      destruct a as [[a1 a2] a3], b as [[b1 b2] b3]. unfold Rsqr. cbn.
      assert (0 <= (a1*b2-a2*b1)*(a1*b2-a2*b1) + (a2*b3-a3*b2)*(a2*b3-a3*b2) + (a1*b3-a3*b1)*(a1*b3-a3*b1)).
      { pose proof (Rle_0_sqr (a1*b2-a2*b1)). pose proof (Rle_0_sqr (a2*b3-a3*b2)). pose proof (Rle_0_sqr (a1*b3-a3*b1)). unfold Rsqr in *. lra. }
      lra.
    Qed.
    Lemma norm_sqr a : norm3 a * norm3 a = dot3 a a.
    Proof. apply sqrt_sqrt. destruct a as [[a1 a2] a3]. cbn. nra. Qed.
    Lemma norm_pos a : 0 <= norm3 a. Proof. apply sqrt_pos. Qed.
    Lemma norm_scale k a : norm3 (scale3 k a) = Rabs k * norm3 a.
    Proof.
      unfold norm3. replace (dot3 (scale3 k a) (scale3 k a)) with (Rsqr k * dot3 a a).
      - rewrite sqrt_mult_alt by apply Rle_0_sqr. rewrite sqrt_Rsqr_abs. reflexivity.
      - destruct a as [[a1 a2] a3]. unfold Rsqr. cbn. ring.
    Qed.
    Lemma norm_triangle a b : norm3 (add3 a b) <= norm3 a + norm3 b.
    Proof.
      apply Rsqr_incr_0_var; [|pose proof (norm_pos a); pose proof (norm_pos b); lra].
      unfold Rsqr. rewrite norm_sqr. pose proof (cauchy a b) as C. pose proof (norm_sqr a) as Qa. pose proof (norm_sqr b) as Qb.
      replace (dot3 (add3 a b) (add3 a b)) with (dot3 a a + 2 * dot3 a b + dot3 b b).
      - lra.
      - destruct a as [[a1 a2] a3], b as [[b1 b2] b3]. cbn. ring.
    Qed.

    Lemma displacement acts : forall e e' p', inv e -> run w e (fin_acts acts) = Ok e' -> pos e' p' ->
      exists p, pos e p /\ norm3 (sub3 p' p) <= V * duration acts.
    Proof.
      induction acts as [|[h a] acts IH]; intros e e' p' I H P.
      - cbn in H. injection H as <-. exists p'. split; [exact P|]. cbn. unfold norm3. rewrite Rmult_0_r.
        apply Req_le. rewrite <- sqrt_0. f_equal. destruct p' as [[p1 p2] p3]. cbn. ring.
      - cbn [fin_acts map run fst snd] in H.
        destruct (o_res (entity_step w e (Fin h) a)) as [[]|] eqn:R; [|discriminate]. cbn [bind] in H.
        destruct (IH _ _ _ (Inv _ _ _ I R) H P) as (p1 & P1 & L).
        destruct (Step _ _ _ _ I R P1) as (p & q & hh & Pe & Eh & Ep & Lq). injection Eh as <-.
        exists p. split; [exact Pe|]. cbn [duration fold_right fst].
        fold (duration acts).
        replace (sub3 p' p) with (add3 (scale3 h q) (sub3 p' p1)).
        + eapply Rle_trans; [apply norm_triangle|]. rewrite norm_scale.
          assert (norm3 q <= V).
          { apply Rsqr_incr_0_var; [|exact HV]. unfold Rsqr. rewrite norm_sqr. lra. }
          pose proof (Rabs_pos h). nra.
        + subst p1. destruct p as [[? ?] ?], q as [[? ?] ?], p' as [[? ?] ?]. cbn.
          apply (f_equal2 pair); [apply (f_equal2 pair)|]; ring.
    Qed.
  End Disp.

  Definition dvec (e : entity xr) (i j k : nat) (p : vec) : Prop :=
    bnth (e_state e) i = Some (Fin (fst (fst p))) /\ bnth (e_state e) j = Some (Fin (snd (fst p))) /\
    bnth (e_state e) k = Some (Fin (snd p)).

  (** Elements 0.. of a successful Euler step without limits or wrapping. *)
  Lemma euler_free (w : world xr) e h a i y' :
    d_method (e_dyn e) = "Euler"%string -> o_res (entity_step w e h a) = Ok tt ->
    bnth (d_min (e_dyn e)) i = Some NInf -> bnth (d_max (e_dyn e)) i = Some PInf ->
    (forall k, bnth (d_sdmin (e_dyn e)) k = Some NInf) -> (forall k, bnth (d_sdmax (e_dyn e)) k = Some PInf) ->
    (forall c, d_wrap (e_dyn e) = Some c -> bnth c i = Some NaN) ->
    bnth (e_state (o_entity (entity_step w e h a))) i = Some (Fin y') ->
    exists u raw hh x r, d_raw (e_dyn e) n0 (e_state e) u = Ok raw /\ h = Fin hh /\
      bnth (e_state e) i = Some (Fin x) /\ bnth raw i = Some (Fin r) /\ y' = x + hh * r.
  Proof.
    intros M R L1 L2 S1 S2 W Y.
    destruct (euler_step _ _ _ _ M R) as (c & c' & sd & _ & _ & C & _ & At).
    destruct (At _ _ Y) as (x & di & lo & hi & X & Di & Lo & Hi & E).
    rewrite L1 in Lo. rewrite L2 in Hi. injection Lo as <-. injection Hi as <-.
    assert (Q : Fin y' = clip1 (nadd x (nmul h di)) NInf PInf).
    { destruct (d_wrap (e_dyn e)) as [cw|] eqn:Ew; [|exact E]. rewrite (W _ eq_refl) in E. exact E. }
    symmetry in Q. apply clip_fin in Q. cbn [nadd XR] in Q. apply add_fin in Q. destruct Q as (x0 & q & -> & Q & ->).
    cbn [nmul XR] in Q. apply mul_fin in Q. destruct Q as (hh & r & -> & -> & ->).
    destruct (compute_state_dot_at _ _ _ _ _ C) as (raw & Er & Ar).
    destruct (Ar _ _ Di) as (x1 & ri & lo & hi & slo & shi & A1' & A2 & A3 & A4 & A5 & A6 & Ed).
    rewrite X in A1'. rewrite L1 in A3. rewrite L2 in A4. rewrite S1 in A5. rewrite S2 in A6.
    injection A1' as <-. injection A3 as <-. injection A4 as <-. injection A5 as <-. injection A6 as <-.
    symmetry in Ed. apply limited_fin in Ed. subst ri.
    exists c', raw, hh, x0, r. auto.
  Qed.

  Lemma zero_row2 u0 u1 q : nadd (nadd n0 (nmul n0 u0)) (nmul n0 u1) = Fin q -> q = 0.
  Proof.
    destruct u0, u1; cbn; unfold xinf_mul; rewrite ?Req_bool_true by lra; cbn; try discriminate.
    intros H. injection H as <-. field.
  Qed.
  Lemma zero_row3 u0 u1 u2 q : nadd (nadd (nadd n0 (nmul n0 u0)) (nmul n0 u1)) (nmul n0 u2) = Fin q -> q = 0.
  Proof.
    destruct u0, u1, u2; cbn; unfold xinf_mul; rewrite ?Req_bool_true by lra; cbn; try discriminate.
    intros H. injection H as <-. field.
  Qed.

  Lemma dubins2d_raw_inv (v_min v_max : xr) samples method t s u raw :
    d_raw (dubins2d_dyn v_min v_max samples method) t s u = Ok raw ->
    exists x y hd v, s = A1 [x; y; hd; v] /\
      (forall r, bnth raw 0 = Some (Fin r) -> exists c vv, hd = Fin c /\ v = Fin vv /\ r = vv * cos c) /\
      (forall r, bnth raw 1 = Some (Fin r) -> exists c vv, hd = Fin c /\ v = Fin vv /\ r = vv * sin c).
  Proof.
    cbn [d_raw dubins2d_dyn]. unfold affine_raw, dubins2d_f, dubins2d_g.
    destruct s as [|[|x [|y [|hd [|v []]]]]]; try discriminate. cbn [bind].
    unfold matvec. destruct u as [|u]; [discriminate|]. destruct u as [|u0 [|u1 []]]; cbn; try discriminate.
    intros Q. injection Q as <-. exists x, y, hd, v. split; [reflexivity|]. cbn.
    split; intros r Q; injection Q as Q; apply add_fin in Q; destruct Q as (p & q & P1 & P2 & ->);
      apply mul_fin in P1; destruct P1 as (vv & c & -> & C & ->); apply fun_fin in C; destruct C as (c0 & -> & ->);
      apply zero_row2 in P2; subst q;
      exists c0, vv; (split; [reflexivity|]); (split; [reflexivity|]); ring.
  Qed.

  Lemma dubins3d_raw_inv (g v_min v_max g_min g_max r_min r_max : xr) samples method t s u raw :
    d_raw (dubins3d_dyn g v_min v_max g_min g_max r_min r_max samples method) t s u = Ok raw ->
    exists x y z hd ga ro v, s = A1 [x; y; z; hd; ga; ro; v] /\
      (forall r, bnth raw 0 = Some (Fin r) -> exists c b vv, hd = Fin c /\ ga = Fin b /\ v = Fin vv /\ r = vv * (cos c * cos b)) /\
      (forall r, bnth raw 1 = Some (Fin r) -> exists c b vv, hd = Fin c /\ ga = Fin b /\ v = Fin vv /\ r = vv * (sin c * cos b)) /\
      (forall r, bnth raw 2 = Some (Fin r) -> exists b vv, ga = Fin b /\ v = Fin vv /\ r = vv * - sin b).
  Proof.
    cbn [d_raw dubins3d_dyn]. unfold affine_raw, dubins3d_f, dubins3d_g.
    destruct s as [|[|x [|y [|z [|hd [|ga [|ro [|v []]]]]]]]]; try discriminate. cbn [bind].
    unfold matvec. destruct u as [|u]; [discriminate|]. destruct u as [|u0 [|u1 [|u2 []]]]; cbn; try discriminate.
    intros Q. injection Q as <-. exists x, y, z, hd, ga, ro, v. split; [reflexivity|]. cbn.
    split; [|split]; intros r Q; injection Q as Q; apply add_fin in Q; destruct Q as (p & q & P1 & P2 & ->);
      apply zero_row3 in P2; subst q.
    1,2: apply mul_fin in P1; destruct P1 as (p1 & p2 & P1 & P2 & ->);
      apply mul_fin in P1; destruct P1 as (vv & c & -> & C & ->); apply fun_fin in C; destruct C as (c0 & -> & ->);
      apply fun_fin in P2; destruct P2 as (b0 & -> & ->);
      exists c0, b0, vv; repeat (split; [reflexivity|]); ring.
    apply mul_fin in P1; destruct P1 as (p1 & p2 & P1 & P2 & ->).
    apply fun_fin in P2; destruct P2 as (b0 & -> & ->).
    change (xmul (Fin (-1 / 1)) v = Fin p1) in P1. apply mul_fin in P1; destruct P1 as (m & vv & Em & -> & ->). injection Em as <-.
    exists b0, vv. repeat (split; [reflexivity|]). field.
  Qed.
End X.
