(** The derivative of a new three-dimensional aircraft (C115). *)
From Coq Require Import String ZArith Reals Bool List Lra Lia Psatz.
From Flocq Require Import Core.Core IEEE754.BinarySingleNaN.
From Verif Require Import PyBase Num Arr BaseModel Dubins Spec SpecCwh NumOrdLemmas ArrLemmas BaseLemmas BaseLemmas2 BaseLemmas3 LimLemmas ConvLemmas
  Float64 XTac F64Wrap F64Bound F64Err SpecRound RoundCwh SpecLin LinRound WrapErr SpecFly SpecFly3 FlyRound FlyRun Fly3Round Fly3Run F32 Fresh SpecFresh FreshLemmas.
Import List ListNotations.
Local Open Scope R_scope.

Section F.
  Variable lm : libm.
  Local Hint Extern 0 (Num f64) => exact (F64 lm) : typeclass_instances.

  Lemma mul_near a e t b : Rabs (a - t) <= e -> Rabs b <= 1 -> Rabs (a * b - t * b) <= e.
  Proof.
    intros A Bb. replace (a * b - t * b) with ((a - t) * b) by ring. rewrite Rabs_mult, <- (Rmult_1_r e).
    apply Rmult_le_compat; auto using Rabs_pos.
  Qed.
  Lemma prod32_2 (v c1 c2 : f64) t1 t2 : within 98 v -> is_finite c1 = true -> is_finite c2 = true -> Rabs t1 <= 1 -> Rabs t2 <= 1 ->
    Rabs (B2R c1 - t1) <= bpow radix2 (-22) -> Rabs (B2R c2 - t2) <= bpow radix2 (-22) ->
    let d := nf32 (nmul (nf32 (nmul v c1)) c2) in
    is_finite d = true /\ Rabs (B2R d - B2R v * t1 * t2) <= bpow radix2 (-19) * Rabs (B2R v) + bpow radix2 (-147).
  Proof.
    intros [Fv Bv] F1 F2 T1 T2 E1 E2 d.
    assert (Wv : within 99 v) by (split; [exact Fv|eapply Rle_trans; [exact Bv|apply bpow_le; lia]]).
    destruct (prod32 lm v c1 t1 Wv F1 T1 E1) as [Fa Ea]. set (a := nf32 (nmul v c1)) in *.
    pose proof (Rabs_pos (B2R v)) as P.
    assert (K : bpow radix2 (-147) = 4 * bpow radix2 (-149)) by (change (-147)%Z with (2 + -149)%Z; rewrite bpow_plus; reflexivity).
    pose proof (bpow_gt_0 radix2 (-149)) as K0.
    assert (K1 : bpow radix2 (-149) <= / 4) by (apply (Rle_trans _ (bpow radix2 (-2))); [apply bpow_le; lia|simpl; lra]).
    assert (Sa : Rabs (B2R a) <= Rabs (B2R v) * (1 + bpow radix2 (-21)) + bpow radix2 (-149)).
    { replace (B2R a) with ((B2R a - B2R v * t1) + B2R v * t1) by ring. eapply Rle_trans; [apply Rabs_triang|].
      assert (Rabs (B2R v * t1) <= Rabs (B2R v) * 1) by (rewrite Rabs_mult; apply Rmult_le_compat_l; assumption).
      lra. }
    assert (Wa : within 99 a).
    { split; [exact Fa|]. eapply Rle_trans; [exact Sa|]. change 99%Z with (98 + 1)%Z. rewrite bpow2_S.
      assert (1 <= bpow radix2 98) by (apply (bpow_le radix2 0); lia). simpl (bpow radix2 (-21)). lra. }
    destruct (prod32 lm a c2 t2 Wa F2 T2 E2) as [Fd Ed]. fold d in Fd, Ed. split; [exact Fd|].
    replace (B2R d - B2R v * t1 * t2) with ((B2R d - B2R a * t2) + (B2R a * t2 - B2R v * t1 * t2)) by ring.
    eapply Rle_trans; [apply Rabs_triang|]. pose proof (mul_near _ _ _ _ Ea T2) as M.
    rewrite K. set (q := bpow radix2 (-149)) in *. clearbody q. simpl (bpow radix2 (-21)) in *. simpl (bpow radix2 (-19)). lra.
  Qed.

  Lemma new_dot3 (m : libm32) x y z hd ga ro v : accurate32 m -> accurate_tan32 m -> Forall is_f32 [hd; ga; ro; v] ->
    1 <= Rabs (B2R v) <= bpow radix2 98 -> Rabs (tan (B2R ro)) <= bpow radix2 98 ->
    exists xd yd zd hdd, dubins3d_f32 lm m G_FT (A1 [x; y; z; hd; ga; ro; v]) = Ok (A1 [xd; yd; zd; hdd; n0; n0; n0]) /\
      Forall (fun a : f64 => is_finite a = true) [xd; yd; zd; hdd] /\
      Rabs (B2R xd - B2R v * cos (B2R hd) * cos (B2R ga)) <= bpow radix2 (-19) * Rabs (B2R v) + bpow radix2 (-147) /\
      Rabs (B2R yd - B2R v * sin (B2R hd) * cos (B2R ga)) <= bpow radix2 (-19) * Rabs (B2R v) + bpow radix2 (-147) /\
      Rabs (B2R zd - - B2R v * sin (B2R ga)) <= bpow radix2 (-19) * Rabs (B2R v) + bpow radix2 (-147) /\
      Rabs (B2R hdd - 32.17 / B2R v * tan (B2R ro)) <= bpow radix2 (-19) * Rabs (32.17 / B2R v * tan (B2R ro)) + bpow radix2 (-100).
  Proof.
    intros Am At F [V1 V98] T98.
    apply Forall_cons_iff in F as [Fhd F]. apply Forall_cons_iff in F as [Fga F]. apply Forall_cons_iff in F as [Fro F]. apply Forall_cons_iff in F as [Fv _].
    destruct (Am hd Fhd) as [[F1 E1] [F2 E2]]. destruct (Am ga Fga) as [[F3 E3] [F4 E4]].
    destruct (At ro Fro) as [F5 E5].
    { eapply Rle_trans; [exact T98|]. apply bpow_le. lia. }
    assert (Cb : forall t, Rabs (cos t) <= 1) by (intros t; apply Rabs_le; apply COS_bound).
    assert (Sb : forall t, Rabs (sin t) <= 1) by (intros t; apply Rabs_le; apply SIN_bound).
    assert (Wv : within 98 v) by (split; [apply Fv|exact V98]).
    assert (Wv' : within 100 v) by (split; [apply Fv|eapply Rle_trans; [exact V98|apply bpow_le; lia]]).
    destruct (prod32_2 v _ _ _ _ Wv F1 F3 (Cb _) (Cb _) E1 E3) as [Fx Ex].
    destruct (prod32_2 v _ _ _ _ Wv F2 F3 (Sb _) (Cb _) E2 E3) as [Fy Ey].
    pose proof (bpow_gt_0 radix2 (-147)) as K0. pose proof (Rabs_pos (B2R v)) as P.
    (* vertical *)
    assert (Ss : Rabs (B2R (sin32 m ga)) <= 2).
    { replace (B2R (sin32 m ga)) with ((B2R (sin32 m ga) - sin (B2R ga)) + sin (B2R ga)) by ring. eapply Rle_trans; [apply Rabs_triang|].
      pose proof (Sb (B2R ga)). simpl (bpow radix2 (-22)) in E4. lra. }
    assert (Ws : within 2 (sin32 m ga)) by (split; [exact F4|simpl; lra]).
    pose proof (ap_in v 100 Wv') as Av. pose proof (ap_in _ 2 Ws) as As. pose proof (apm1 lm) as Am1.
    assert (Bz : exists k G D t g, ap k G D (nmul (nmul (nZ (-1)) v) (sin32 m ga)) t g /\ (k <= 8)%nat /\ (D <= -701)%Z /\
      t = - B2R v * B2R (sin32 m ga) /\ g = Rabs (B2R v) * Rabs (B2R (sin32 m ga))).
    { do 5 eexists. split; [eapply nmul_ap; [eapply nmul_ap; [exact Am1|exact Av|reflexivity]|exact As|reflexivity]|].
      split; [cbn; lia|]. split; [cbn; lia|]. split; ring. }
    destruct Bz as (k & G & D & t & g & Bz & Hk & HD & -> & ->).
    destruct (ap_final _ _ _ _ _ _ _ _ Bz ltac:(lia) ltac:(lia) eq_refl eq_refl) as [Fz Ez].
    (* heading *)
    assert (W5 : within 100 (tan32 m ro)).
    { split; [exact F5|]. replace (B2R (tan32 m ro)) with ((B2R (tan32 m ro) - tan (B2R ro)) + tan (B2R ro)) by ring.
      eapply Rle_trans; [apply Rabs_triang|]. change 100%Z with (2 + 98)%Z. rewrite bpow_plus. simpl (bpow radix2 2).
      assert (bpow radix2 (-140) <= bpow radix2 98) by (apply bpow_le; lia). simpl (bpow radix2 (-22)) in E5. pose proof (Rabs_pos (tan (B2R ro))). lra. }
    pose proof (ap_in _ 100 W5) as A5.
    pose proof (ap_div 1 6 (-1074) (G_FT : f64) v 32.17 32.17 ltac:(lia) ltac:(lia) ltac:(lia) (ap_gft lm) (proj1 Fv)
      ltac:(eapply Rle_trans; [|exact V1]; apply (bpow_le radix2 (-100) 0); lia)) as Ad.
    assert (Bh : exists k G D t g, ap k G D (nmul (ndiv G_FT v) (tan32 m ro)) t g /\ (k <= 8)%nat /\ (D <= -701)%Z /\
      t = 32.17 / B2R v * B2R (tan32 m ro) /\ g = 32.17 / Rabs (B2R v) * Rabs (B2R (tan32 m ro))).
    { do 5 eexists. split; [eapply nmul_ap; [exact Ad|exact A5|reflexivity]|]. split; [cbn; lia|]. split; [cbn; lia|]. split; reflexivity. }
    destruct Bh as (k' & G' & D' & t' & g' & Bh & Hk' & HD' & -> & ->).
    destruct (ap_final _ _ _ _ _ _ _ _ Bh ltac:(lia) ltac:(lia) eq_refl eq_refl) as [Fh Eh].
    do 4 eexists. split; [reflexivity|]. split; [repeat (constructor; [assumption|]); constructor|].
    split; [exact Ex|]. split; [exact Ey|].
    assert (K7 : bpow radix2 (-700) <= bpow radix2 (-147)) by (apply bpow_le; lia).
    split.
    - match goal with |- Rabs (?a - _) <= _ => replace (a - - B2R v * sin (B2R ga)) with
        ((a - - B2R v * B2R (sin32 m ga)) + - B2R v * (B2R (sin32 m ga) - sin (B2R ga))) by ring end.
      eapply Rle_trans; [apply Rabs_triang|]. rewrite Rabs_mult, Rabs_Ropp.
      assert (Rabs (B2R v) * Rabs (B2R (sin32 m ga) - sin (B2R ga)) <= Rabs (B2R v) * bpow radix2 (-22)) by (apply Rmult_le_compat_l; assumption).
      assert (Rabs (B2R v) * Rabs (B2R (sin32 m ga)) <= Rabs (B2R v) * 2) by (apply Rmult_le_compat_l; assumption).
      assert (bpow radix2 (-48) * (Rabs (B2R v) * Rabs (B2R (sin32 m ga))) <= bpow radix2 (-48) * (Rabs (B2R v) * 2)) by (apply Rmult_le_compat_l; [apply bpow_ge_0|assumption]).
      simpl (bpow radix2 (-22)) in *. simpl (bpow radix2 (-48)) in *. simpl (bpow radix2 (-19)). lra.
    - set (q := 32.17 / B2R v) in *.
      assert (Nz : B2R v <> 0) by (intros Z; rewrite Z, Rabs_R0 in V1; lra).
      assert (Aq : 32.17 / Rabs (B2R v) = Rabs q).
      { unfold q, Rdiv. rewrite Rabs_mult, Rabs_inv, (Rabs_pos_eq 32.17) by lra. reflexivity. }
      assert (Q32 : Rabs q <= 33).
      { rewrite <- Aq. unfold Rdiv. assert (/ Rabs (B2R v) <= 1) by (rewrite <- Rinv_1; apply Rinv_le_contravar; lra). lra. }
      rewrite Aq in Eh. set (tt := B2R (tan32 m ro)) in *. set (te := tan (B2R ro)) in *.
      match goal with |- Rabs (?a - _) <= _ => replace (a - q * te) with ((a - q * tt) + q * (tt - te)) by ring end.
      eapply Rle_trans; [apply Rabs_triang|]. rewrite !Rabs_mult.
      assert (Stt : Rabs tt <= Rabs te * (1 + bpow radix2 (-22)) + bpow radix2 (-140)).
      { replace tt with ((tt - te) + te) at 1 by ring. eapply Rle_trans; [apply Rabs_triang|]. lra. }
      pose proof (Rabs_pos q) as Pq. pose proof (Rabs_pos te) as Pt.
      assert (L1 : Rabs q * Rabs tt <= Rabs q * (Rabs te * (1 + bpow radix2 (-22)) + bpow radix2 (-140))) by (apply Rmult_le_compat_l; assumption).
      assert (L2 : Rabs q * Rabs (tt - te) <= Rabs q * (bpow radix2 (-22) * Rabs te + bpow radix2 (-140))) by (apply Rmult_le_compat_l; assumption).
      assert (L3 : Rabs q * bpow radix2 (-140) <= 33 * bpow radix2 (-140)) by (apply Rmult_le_compat_r; [apply bpow_ge_0|exact Q32]).
      assert (L4 : 100 * bpow radix2 (-140) <= bpow radix2 (-100) / 2).
      { replace (bpow radix2 (-100)) with (bpow radix2 40 * bpow radix2 (-140)) by (rewrite <- bpow_plus; reflexivity).
        pose proof (bpow_gt_0 radix2 (-140)). simpl (bpow radix2 40). lra. }
      assert (L5 : bpow radix2 (-700) <= bpow radix2 (-140)) by (apply bpow_le; lia).
      assert (L0 : 0 <= Rabs q * Rabs te) by (apply Rmult_le_pos; assumption).
      pose proof (bpow_gt_0 radix2 (-140)) as L6.
      replace (Rabs q * (Rabs te * (1 + bpow radix2 (-22)) + bpow radix2 (-140))) with (Rabs q * Rabs te * (1 + bpow radix2 (-22)) + Rabs q * bpow radix2 (-140)) in L1 by ring.
      replace (Rabs q * (bpow radix2 (-22) * Rabs te + bpow radix2 (-140))) with (bpow radix2 (-22) * (Rabs q * Rabs te) + Rabs q * bpow radix2 (-140)) in L2 by ring.
      simpl (bpow radix2 (-22)) in *. simpl (bpow radix2 (-48)) in *. simpl (bpow radix2 (-19)). lra.
  Qed.

  Ltac apx := lazymatch goal with
    | |- ap _ _ _ (nadd _ _) _ _ => eapply nadd_ap; [apx|apx|reflexivity]
    | |- ap _ _ _ (nmul _ _) _ _ => eapply nmul_ap; [apx|apx|reflexivity]
    | |- ap _ _ _ n0 _ _ => apply ap0
    | |- ap _ _ _ n1 _ _ => apply ap1
    | |- ap _ _ _ (limited_dot _ _ _ _ _ _) _ _ => eapply (stop64 lm); [eassumption|eassumption|eassumption|apx]
    | |- _ => eassumption
    end.

  Lemma fly3_euler_raw (w : world f64) (e : entity f64) f32 xd yd zd hdd v_min v_max g_min g_max r_min r_max samples gr_min gr_max rr_min rr_max acc_min acc_max
      h x y z hd ga ro v (gr rr acc : f64) :
    let d := dubins3d_dyn G_FT v_min v_max g_min g_max r_min r_max samples "Euler" in
    e_dyn e = {| d_min := d_min d; d_max := d_max d; d_wrap := d_wrap d; d_use_jax := d_use_jax d; d_samples := samples;
                 d_sdmin := no_min; d_sdmax := no_max; d_method := "Euler"; d_raw := affine_raw f32 dubins3d_g |} ->
    f32 (A1 [x; y; z; hd; ga; ro; v]) = Ok (A1 [xd; yd; zd; hdd; n0; n0; n0]) ->
    Forall (within 105) [xd; yd; zd; hdd] -> (samples <= 0)%Z ->
    e_cmin e = A1 [gr_min; rr_min; acc_min] -> e_cmax e = A1 [gr_max; rr_max; acc_max] ->
    Forall (fun a : f64 => is_finite (f64_f32 a) = true) [v_min; v_max; g_min; g_max; r_min; r_max] ->
    Forall (fun a : f64 => Rabs (B2R (f64_f32 a)) <= 2) [g_min; g_max; r_min; r_max] ->
    Forall (within 100) [gr_min; gr_max; rr_min; rr_max; acc_min; acc_max] -> within 100 h -> Forall (within 100) [x; y; z; hd; ga; ro; v] ->
    Forall (fun f : f64 => is_finite f = true) [gr; rr; acc] -> e_state e = A1 [x; y; z; hd; ga; ro; v] ->
    let o := entity_step w e h (AArr (A1 [gr; rr; acc])) in
    let f a := B2R (f64_f32 a) in
    let u1 := clipR (B2R gr_min) (B2R gr_max) (B2R gr) in
    let u2 := clipR (B2R rr_min) (B2R rr_max) (B2R rr) in
    let u3 := clipR (B2R acc_min) (B2R acc_max) (B2R acc) in
    let H := B2R h in let X := B2R x in let Y := B2R y in let Zz := B2R z in let HD := B2R hd in let GA := B2R ga in let RO := B2R ro in let V := B2R v in
    exists x' y' z' hd' ga' ro' v', o_res o = Ok tt /\ e_state (o_entity o) = A1 [x'; y'; z'; hd'; ga'; ro'; v'] /\
      agrees x' (X + H * B2R xd) (Rabs X + Rabs H * Rabs (B2R xd)) /\
      agrees y' (Y + H * B2R yd) (Rabs Y + Rabs H * Rabs (B2R yd)) /\
      agrees z' (Zz + H * B2R zd) (Rabs Zz + Rabs H * Rabs (B2R zd)) /\
      (is_finite hd' = true /\ - pi64 <= B2R hd' <= pi64 /\
       angle_near (bpow radix2 (-47) * (Rabs HD + Rabs H * Rabs (B2R hdd) + 8) + bpow radix2 (-699)) (B2R hd')
         (HD + H * B2R hdd)) /\
      (is_finite ga' = true /\
       Rabs (B2R ga' - clipR (f g_min) (f g_max) (GA + H * stopR (f g_min) (f g_max) GA u1)) <=
         bpow radix2 (-48) * (Rabs GA + Rabs H * Rabs u1 + 8) + bpow radix2 (-700) /\
       (exists t, Rabs (B2R ga' - clipR (f g_min) (f g_max) t) <= bpow radix2 (-47))) /\
      (is_finite ro' = true /\
       Rabs (B2R ro' - clipR (f r_min) (f r_max) (RO + H * stopR (f r_min) (f r_max) RO u2)) <=
         bpow radix2 (-48) * (Rabs RO + Rabs H * Rabs u2 + 8) + bpow radix2 (-700) /\
       (exists t, Rabs (B2R ro' - clipR (f r_min) (f r_max) t) <= bpow radix2 (-47))) /\
      agrees v' (clipR (f v_min) (f v_max) (V + H * stopR (f v_min) (f v_max) V u3)) (Rabs V + Rabs H * Rabs u3) /\
      (exists t, B2R v' = clipR (f v_min) (f v_max) t).
  Proof.
    intros d Ed Ef Wd Sa C1 C2 Ff S2 Wc Wh Ws Fu Es o f u1 u2 u3 H X Y Zz HD GA RO V.
    apply Forall_cons_iff in Ff as [Fv1 Ff]. apply Forall_cons_iff in Ff as [Fv2 Ff]. apply Forall_cons_iff in Ff as [Fg1 Ff].
    apply Forall_cons_iff in Ff as [Fg2 Ff]. apply Forall_cons_iff in Ff as [Fr1 Ff]. apply Forall_cons_iff in Ff as [Fr2 _].
    apply Forall_cons_iff in S2 as [Sg1 S2]. apply Forall_cons_iff in S2 as [Sg2 S2]. apply Forall_cons_iff in S2 as [Sr1 S2].
    apply Forall_cons_iff in S2 as [Sr2 _].
    apply Forall_cons_iff in Wc as [Wc1 Wc]. apply Forall_cons_iff in Wc as [Wc2 Wc]. apply Forall_cons_iff in Wc as [Wc3 Wc].
    apply Forall_cons_iff in Wc as [Wc4 Wc]. apply Forall_cons_iff in Wc as [Wc5 Wc]. apply Forall_cons_iff in Wc as [Wc6 _].
    apply Forall_cons_iff in Ws as [Wx Ws]. apply Forall_cons_iff in Ws as [Wy Ws]. apply Forall_cons_iff in Ws as [Wz Ws].
    apply Forall_cons_iff in Ws as [Whd Ws]. apply Forall_cons_iff in Ws as [Wga Ws]. apply Forall_cons_iff in Ws as [Wro Ws].
    apply Forall_cons_iff in Ws as [Wv _].
    apply Forall_cons_iff in Fu as [Fgr Fu]. apply Forall_cons_iff in Fu as [Frr Fu]. apply Forall_cons_iff in Fu as [Facc _].
    destruct (clip_within lm gr gr_min gr_max Fgr Wc1 Wc2) as [Wu1 Eu1].
    destruct (clip_within lm rr rr_min rr_max Frr Wc3 Wc4) as [Wu2 Eu2].
    destruct (clip_within lm acc acc_min acc_max Facc Wc5 Wc6) as [Wu3 Eu3].
    fold u1 in Eu1. fold u2 in Eu2. fold u3 in Eu3.
    set (a1 := clip1 gr gr_min gr_max) in *. set (a2 := clip1 rr rr_min rr_max) in *. set (a3 := clip1 acc acc_min acc_max) in *.
    apply Forall_cons_iff in Wd as [Wxd Wd]. apply Forall_cons_iff in Wd as [Wyd Wd]. apply Forall_cons_iff in Wd as [Wzd Wd].
    apply Forall_cons_iff in Wd as [Whdd _].
    pose proof (ap_in xd 105 Wxd) as Axd. pose proof (ap_in yd 105 Wyd) as Ayd. pose proof (ap_in zd 105 Wzd) as Azd. pose proof (ap_in hdd 105 Whdd) as Ahdd.
    pose proof (ap_in x 100 Wx) as Ax. pose proof (ap_in y 100 Wy) as Ay. pose proof (ap_in z 100 Wz) as Az.
    pose proof (ap_in hd 100 Whd) as Ahd. pose proof (ap_in ga 100 Wga) as Aga. pose proof (ap_in ro 100 Wro) as Aro. pose proof (ap_in v 100 Wv) as Av.
    pose proof (ap_in h 100 Wh) as Ah. pose proof (ap_in a1 100 Wu1) as Au1. pose proof (ap_in a2 100 Wu2) as Au2. pose proof (ap_in a3 100 Wu3) as Au3.
    pose proof (proj1 Wv) as Fv. pose proof (proj1 Wga) as Fga. pose proof (proj1 Wro) as Fro.
    pose (zr := nadd (nadd (nadd n0 (nmul n0 a1)) (nmul n0 a2)) (nmul n0 a3)).
    pose (r1 := nadd xd zr).
    pose (r2 := nadd yd zr).
    pose (r3 := nadd zd zr).
    pose (r4 := nadd hdd zr).
    pose (r5 := nadd n0 (nadd (nadd (nadd n0 (nmul n1 a1)) (nmul n0 a2)) (nmul n0 a3))).
    pose (r6 := nadd n0 (nadd (nadd (nadd n0 (nmul n0 a1)) (nmul n1 a2)) (nmul n0 a3))).
    pose (r7 := nadd n0 (nadd (nadd (nadd n0 (nmul n0 a1)) (nmul n0 a2)) (nmul n1 a3))).
    pose (r5' := limited_dot (nf32 g_min) (nf32 g_max) nninf npinf ga r5).
    pose (r6' := limited_dot (nf32 r_min) (nf32 r_max) nninf npinf ro r6).
    pose (r7' := limited_dot (nf32 v_min) (nf32 v_max) nninf npinf v r7).
    assert (B1 : exists k G D t g, ap k G D (nadd x (nmul h r1)) t g /\ (k <= 12)%nat /\ (D <= -701)%Z /\ is_finite r1 = true /\
      t = X + H * B2R xd /\ g = Rabs X + Rabs H * Rabs (B2R xd)).
    { unfold r1, zr. do 5 eexists. split; [apx|]. split; [cbn; lia|]. split; [cbn; lia|]. split; [eapply ap_fin; apx|].
      unfold X, H. split; ring. }
    assert (B2 : exists k G D t g, ap k G D (nadd y (nmul h r2)) t g /\ (k <= 12)%nat /\ (D <= -701)%Z /\ is_finite r2 = true /\
      t = Y + H * B2R yd /\ g = Rabs Y + Rabs H * Rabs (B2R yd)).
    { unfold r2, zr. do 5 eexists. split; [apx|]. split; [cbn; lia|]. split; [cbn; lia|]. split; [eapply ap_fin; apx|].
      unfold Y, H. split; ring. }
    assert (B3 : exists k G D t g, ap k G D (nadd z (nmul h r3)) t g /\ (k <= 12)%nat /\ (D <= -701)%Z /\ is_finite r3 = true /\
      t = Zz + H * B2R zd /\ g = Rabs Zz + Rabs H * Rabs (B2R zd)).
    { unfold r3, zr. do 5 eexists. split; [apx|]. split; [cbn; lia|]. split; [cbn; lia|]. split; [eapply ap_fin; apx|].
      unfold Zz, H. split; ring. }
    assert (B4 : exists k G D t g, ap k G D (nadd hd (nmul h r4)) t g /\ (k <= 12)%nat /\ (D <= -701)%Z /\ is_finite r4 = true /\
      t = HD + H * B2R hdd /\ g = Rabs HD + Rabs H * Rabs (B2R hdd)).
    { unfold r4, zr. do 5 eexists. split; [apx|]. split; [cbn; lia|]. split; [cbn; lia|]. split; [eapply ap_fin; apx|].
      unfold H, HD. split; ring. }
    assert (B5 : exists k G D t g, ap k G D (nadd ga (nmul h r5')) t g /\ (k <= 12)%nat /\ (D <= -701)%Z /\ is_finite r5 = true /\
      t = GA + H * stopR (f g_min) (f g_max) GA u1 /\ g = Rabs GA + Rabs H * Rabs u1).
    { unfold r5', r5. do 5 eexists. split; [apx|]. split; [cbn; lia|]. split; [cbn; lia|]. split; [eapply ap_fin; apx|].
      rewrite <- Eu1. unfold H, GA, f. split; [|ring]. do 3 f_equal. ring. }
    assert (B6 : exists k G D t g, ap k G D (nadd ro (nmul h r6')) t g /\ (k <= 12)%nat /\ (D <= -701)%Z /\ is_finite r6 = true /\
      t = RO + H * stopR (f r_min) (f r_max) RO u2 /\ g = Rabs RO + Rabs H * Rabs u2).
    { unfold r6', r6. do 5 eexists. split; [apx|]. split; [cbn; lia|]. split; [cbn; lia|]. split; [eapply ap_fin; apx|].
      rewrite <- Eu2. unfold H, RO, f. split; [|ring]. do 3 f_equal. ring. }
    assert (B7 : exists k G D t g, ap k G D (nadd v (nmul h r7')) t g /\ (k <= 12)%nat /\ (D <= -701)%Z /\ is_finite r7 = true /\
      t = V + H * stopR (f v_min) (f v_max) V u3 /\ g = Rabs V + Rabs H * Rabs u3).
    { unfold r7', r7. do 5 eexists. split; [apx|]. split; [cbn; lia|]. split; [cbn; lia|]. split; [eapply ap_fin; apx|].
      rewrite <- Eu3. unfold H, V, f. split; [|ring]. do 3 f_equal. ring. }
    destruct B1 as (k1 & G1 & D1 & t1 & g1 & B1 & K1 & L1 & F1 & -> & ->).
    destruct B2 as (k2 & G2 & D2 & t2 & g2 & B2 & K2 & L2 & F2 & -> & ->).
    destruct B3 as (k3 & G3 & D3 & t3 & g3 & B3 & K3 & L3 & F3 & -> & ->).
    destruct B4 as (k4 & G4 & D4 & t4 & g4 & B4 & K4 & L4 & F4 & -> & ->).
    destruct B5 as (k5 & G5 & D5 & t5 & g5 & B5 & K5 & L5 & F5 & -> & ->).
    destruct B6 as (k6 & G6 & D6 & t6 & g6 & B6 & K6 & L6 & F6 & -> & ->).
    destruct B7 as (k7 & G7 & D7 & t7 & g7 & B7 & K7 & L7 & F7 & -> & ->).
    destruct (f32_const lm) as (I1 & I2 & I3 & I4).
    destruct (euler_list w e h [x; y; z; hd; ga; ro; v] [gr; rr; acc] [r1; r2; r3; r4; r5'; r6'; r7']
      [nnan; nnan; nnan; n0; n0; n0; nnan]) as (R1 & _ & R3).
    all: try (rewrite Ed; try reflexivity; try exact Sa).
    all: try (exact Es || reflexivity || (rewrite C1; reflexivity) || (rewrite C2; reflexivity)).
    { rewrite C1, C2. cbn [map clip_list expand length]. fold a1 a2 a3.
      erewrite csd_list with (r := [r1; r2; r3; r4; r5; r6; r7]).
      2-7: try reflexivity.
      2: { cbn [d_raw]. unfold affine_raw. rewrite Ef. reflexivity. }
      cbn [expand lim_list map d dubins3d_dyn d_min d_max d_sdmin d_sdmax length repeat no_min no_max]. rewrite I1, I2.
      rewrite (stop_free lm x r1), (stop_free lm y r2), (stop_free lm z r3), (stop_free lm hd r4) by (assumption || apply Wx || apply Wy || apply Wz || apply Whd).
      reflexivity. }
    cbn [length] in R3. rewrite Ed in R3. cbn [d dubins3d_dyn d_min d_max expand map clip_list zipw wrap_list] in R3.
    rewrite I1, I2 in R3.
    change (nisnan (nnan : f64)) with true in R3. replace (nisnan (n0 : f64)) with false in R3 by (symmetry; apply (nan_fin lm), (zero64 lm)).
    cbv iota in R3.
    rewrite (proj1 (fin_free lm _ (ap_fin _ _ _ _ _ _ B1))), (proj1 (fin_free lm _ (ap_fin _ _ _ _ _ _ B2))),
      (proj1 (fin_free lm _ (ap_fin _ _ _ _ _ _ B3))), (proj1 (fin_free lm _ (ap_fin _ _ _ _ _ _ B4))) in R3.
    destruct (clip64 lm _ _ _ (ap_fin _ _ _ _ _ _ B7) Fv1 Fv2) as [Fv' Ev'].
    destruct (ap_wrap' lm _ _ _ _ _ _ B4 K4 L4) as [Fw Nw].
    pose proof (clip_wrap lm _ _ _ _ _ _ _ _ B5 K5 L5 Fg1 Fg2 Sg1 Sg2) as Wg.
    pose proof (clip_wrap lm _ _ _ _ _ _ _ _ B6 K6 L6 Fr1 Fr2 Sr1 Sr2) as Wr.
    do 7 eexists. split; [exact R1|]. split; [exact R3|].
    split; [eapply ap_final; [exact B1|lia|lia|reflexivity|reflexivity]|].
    split; [eapply ap_final; [exact B2|lia|lia|reflexivity|reflexivity]|].
    split; [eapply ap_final; [exact B3|lia|lia|reflexivity|reflexivity]|].
    split; [split; [exact Fw|]; split; [apply (wrap64_range lm _ (ap_fin _ _ _ _ _ _ B4))|exact Nw]|].
    split; [exact Wg|]. split; [exact Wr|].
    split; [|eexists; exact Ev'].
    destruct (ap_final _ _ _ _ _ _ _ _ B7 ltac:(lia) ltac:(lia) eq_refl eq_refl) as [_ Q].
    split; [exact Fv'|]. eapply Rle_trans; [|exact Q]. eapply Rle_trans; [|apply clipR_near]. right. do 2 f_equal. exact Ev'.
  Qed.

  Section R.
    Variables (mm : libm32) (w : world f64) (v_min v_max g_min g_max r_min r_max gr_min gr_max rr_min rr_max acc_min acc_max : f64)
      (samples : Z) (B H V C X A m c : R) (N : nat).
    Hypotheses (Am : accurate32 mm) (At : accurate_tan32 mm) (Sa : (samples <= 0)%Z)
      (Ff : Forall (fun a : f64 => is_finite (f64_f32 a) = true) [v_min; v_max; g_min; g_max; r_min; r_max])
      (Wc : Forall (within 100) [gr_min; gr_max; rr_min; rr_max; acc_min; acc_max])
      (SV : Forall (fun a : f64 => m <= B2R (f64_f32 a) <= V) [v_min; v_max])
      (SG : Forall (fun a : f64 => Rabs (B2R (f64_f32 a)) <= 2) [g_min; g_max])
      (SR : Forall (fun a : f64 => Rabs (B2R (f64_f32 a)) <= A) [r_min; r_max])
      (SC : Forall (fun a : f64 => Rabs (B2R a) <= C) [gr_min; gr_max; rr_min; rr_max; acc_min; acc_max])
      (M0 : 1 <= m) (c0 : bpow radix2 (-98) <= c) (Api : A + 1 / 1024 <= PI) (Ca : c <= cos (A + 1 / 1024))
      (H0 : 0 <= H) (X0 : 0 <= X) (HN : (1 <= N)%nat) (Bx : X + INR N * (H * V) + 1 <= B) (B99 : B <= bpow radix2 99) (V98 : V <= bpow radix2 98).
    Let f (a : f64) := B2R (f64_f32 a).
    Let L := {| g_lo := f g_min; g_hi := f g_max; b_lo := f r_min; b_hi := f r_max; s_lo := f v_min; s_hi := f v_max;
                gr_lo := B2R gr_min; gr_hi := B2R gr_max; br_lo := B2R rr_min; br_hi := B2R rr_max;
                ac_lo := B2R acc_min; ac_hi := B2R acc_max |}.
    Let W := turn_max m c.
    Hypotheses (FM : first_move H V <= 1) (FT : first_turn H W <= 1).

    Lemma new_step3 x y z hd ga ro v (h gr rr acc : f64) :
      Forall (fun a : f64 => is_finite (f64_f32 a) = true) [x; y; z; hd; ga; ro; v] ->
      Rabs (f x) <= X -> Rabs (f y) <= X -> Rabs (f z) <= X -> Rabs (f hd) + 1 <= B -> Rabs (f ga) <= 2 -> Rabs (f ro) <= A -> m <= f v <= V ->
      within 100 h -> 0 <= B2R h <= H -> Forall (fun a : f64 => is_finite a = true) [gr; rr; acc] ->
      let e0 := dubins3d_aircraft samples "Euler" v_min v_max g_min g_max r_min r_max gr_min gr_max rr_min rr_max acc_min acc_max x y z hd ga ro v in
      let o := entity_step w (with_raw e0 (affine_raw (dubins3d_f32 lm mm G_FT) dubins3d_g)) h (AArr (A1 [gr; rr; acc])) in
      let p := {| qx := f x; qy := f y; qz := f z; qh := f hd; qg := f ga; qr := f ro; qv := f v |} in
      o_res o = Ok tt /\
      fly3_inv lm v_min v_max g_min g_max r_min r_max gr_min gr_max rr_min rr_max acc_min acc_max samples B H V C X A m c
        (first_move H V) (first_turn H W) 1
        (with_raw (o_entity o) (d_raw (e_dyn e0))) (fly31 L (B2R h) (B2R gr) (B2R rr) (B2R acc) p).
    Proof.
      intros Fs Xx Xy Xz Xh Xg Xr Xv Wh Hh Fu e0 o p.
      pose proof Fs as Fs'.
      apply Forall_cons_iff in Fs as [Fx Fs]. apply Forall_cons_iff in Fs as [Fy Fs]. apply Forall_cons_iff in Fs as [Fz Fs].
      apply Forall_cons_iff in Fs as [Fhd Fs]. apply Forall_cons_iff in Fs as [Fga Fs]. apply Forall_cons_iff in Fs as [Fro Fs].
      apply Forall_cons_iff in Fs as [Fv _].
      pose proof SV as SV'. apply Forall_cons_iff in SV' as [SV1 SV']. apply Forall_cons_iff in SV' as [SV2 _].
      pose proof SG as SG'. apply Forall_cons_iff in SG' as [SG1 SG']. apply Forall_cons_iff in SG' as [SG2 _].
      pose proof SR as SR'. apply Forall_cons_iff in SR' as [SR1 SR']. apply Forall_cons_iff in SR' as [SR2 _].
      pose proof SC as SC'. apply Forall_cons_iff in SC' as [SC1 SC']. apply Forall_cons_iff in SC' as [SC2 SC']. apply Forall_cons_iff in SC' as [SC3 SC'].
      apply Forall_cons_iff in SC' as [SC4 SC']. apply Forall_cons_iff in SC' as [SC5 SC']. apply Forall_cons_iff in SC' as [SC6 _].
      assert (V0 : 0 < V) by lra.
      assert (C0 : 0 <= C) by (eapply Rle_trans; [apply Rabs_pos|exact SC1]).
      assert (c1 : 0 < c) by (pose proof (bpow_gt_0 radix2 (-98)); lra).
      assert (A0 : 0 <= A < 2).
      { assert (P : 0 <= A) by (eapply Rle_trans; [apply Rabs_pos|exact SR1]). split; [exact P|].
        destruct (Rlt_le_dec A 2) as [|N2]; [assumption|]. exfalso.
        assert (cos (A + 1 / 1024) <= cos (PI / 2)) by (pose proof PI_4; apply cos_decr_1; lra). rewrite cos_PI2 in *. lra. }
      assert (W0 : 0 <= W) by (unfold W, turn_max, Rdiv; apply Rmult_le_pos; [lra|left; apply Rinv_0_lt_compat, Rmult_lt_0_compat; lra]).
      assert (T0 : 0 <= turn_lip m c).
      { unfold turn_lip. fold (turn_max m c). fold W. assert (0 < / m) by (apply Rinv_0_lt_compat; lra). assert (0 < / c) by (apply Rinv_0_lt_compat; lra).
        apply Rmult_le_pos; lra. }
      assert (Av : Rabs (f v) = f v) by (apply Rabs_pos_eq; lra).
      assert (Cro : c <= cos (f ro)) by (apply (cos_small A); [exact Api|exact Ca|lra]).
      assert (Tm : Rabs (tan (f ro)) <= bpow radix2 98).
      { eapply Rle_trans; [apply (tan_bound _ c c1 Cro)|].
        replace (bpow radix2 98) with (/ bpow radix2 (-98)) by (rewrite <- bpow_opp; reflexivity). apply Rinv_le_contravar; [apply bpow_gt_0|exact c0]. }
      assert (I32 : Forall is_f32 [f64_f32 hd; f64_f32 ga; f64_f32 ro; f64_f32 v]).
      { constructor; [apply f32_idem, Fhd|]. constructor; [apply f32_idem, Fga|]. constructor; [apply f32_idem, Fro|]. constructor; [apply f32_idem, Fv|constructor]. }
      destruct (new_dot3 mm (f64_f32 x) (f64_f32 y) (f64_f32 z) (f64_f32 hd) (f64_f32 ga) (f64_f32 ro) (f64_f32 v) Am At I32)
        as (xd & yd & zd & hdd & Ef & Fd & Exd & Eyd & Ezd & Ehd); [fold (f v); lra|exact Tm|].
      fold (f v) (f hd) (f ga) (f ro) in Exd, Eyd, Ezd, Ehd.
      replace (f v * cos (f hd) * cos (f ga)) with (f v * (cos (f hd) * cos (f ga))) in Exd by ring.
      replace (f v * sin (f hd) * cos (f ga)) with (f v * (sin (f hd) * cos (f ga))) in Eyd by ring.
      replace (- f v * sin (f ga)) with (f v * - sin (f ga)) in Ezd by ring.
      assert (cosb : forall t, Rabs (cos t) <= 1) by (intros t; apply Rabs_le, COS_bound).
      assert (sinb : forall t, Rabs (sin t) <= 1) by (intros t; apply Rabs_le, SIN_bound).
      assert (Neg : forall t, Rabs (- sin t) <= 1) by (intros t; rewrite Rabs_Ropp; apply sinb).
      assert (Kx : Rabs (cos (f hd) * cos (f ga)) <= 1) by (apply prod_one; auto).
      assert (Ky : Rabs (sin (f hd) * cos (f ga)) <= 1) by (apply prod_one; auto).
      pose proof (turn_size m c (f v) (f ro) ltac:(lra) c1 (proj1 Xv) Cro) as TS. fold W in TS.
      assert (TS' : Rabs (32.17 / f v * tan (f ro)) <= W).
      { eapply Rle_trans; [|exact TS]. right. unfold Rdiv. rewrite !Rabs_mult, Rabs_inv, (Rabs_pos_eq 32.17) by lra. reflexivity. }
      set (wq := 32.17 / f v * tan (f ro)) in *.
      assert (K147 : bpow radix2 (-147) <= / 1000) by (apply (Rle_trans _ (bpow radix2 (-10))); [apply bpow_le; lia|simpl; lra]).
      assert (K100 : bpow radix2 (-100) <= / 1000) by (apply (Rle_trans _ (bpow radix2 (-10))); [apply bpow_le; lia|simpl; lra]).
      pose proof (bpow_gt_0 radix2 (-147)) as P147. pose proof (bpow_gt_0 radix2 (-100)) as P100. pose proof (bpow_gt_0 radix2 (-19)) as P19.
      assert (Szd : forall (d : f64) (t : R), Rabs (B2R d - f v * t) <= bpow radix2 (-19) * Rabs (f v) + bpow radix2 (-147) ->
        Rabs t <= 1 -> Rabs (B2R d) <= V + (bpow radix2 (-19) * V + bpow radix2 (-147)) /\ Rabs (B2R d - f v * t) <= bpow radix2 (-19) * V + bpow radix2 (-147)).
      { intros d t E Ht. rewrite Av in E. assert (E' : Rabs (B2R d - f v * t) <= bpow radix2 (-19) * V + bpow radix2 (-147)).
        { eapply Rle_trans; [exact E|]. apply Rplus_le_compat_r, Rmult_le_compat_l; lra. }
        split; [|exact E']. replace (B2R d) with ((B2R d - f v * t) + f v * t) by ring. eapply Rle_trans; [apply Rabs_triang|].
        assert (Rabs (f v * t) <= V) by (rewrite Rabs_mult, <- (Rmult_1_r V); apply Rmult_le_compat; auto using Rabs_pos; lra). lra. }
      destruct (Szd xd _ Exd Kx) as [Sxd Exd']. destruct (Szd yd _ Eyd Ky) as [Syd Eyd']. destruct (Szd zd _ Ezd (Neg _)) as [Szd' Ezd'].
      assert (Ehd' : Rabs (B2R hdd - wq) <= bpow radix2 (-19) * W + bpow radix2 (-100)).
      { eapply Rle_trans; [exact Ehd|]. apply Rplus_le_compat_r, Rmult_le_compat_l; lra. }
      assert (Shd : Rabs (B2R hdd) <= W + (bpow radix2 (-19) * W + bpow radix2 (-100))).
      { replace (B2R hdd) with ((B2R hdd - wq) + wq) by ring. eapply Rle_trans; [apply Rabs_triang|]. lra. }
      assert (WW : W <= bpow radix2 104).
      { unfold W, turn_max, Rdiv. rewrite Rinv_mult. assert (/ m <= 1) by (rewrite <- Rinv_1; apply Rinv_le_contravar; lra). assert (0 < / m) by (apply Rinv_0_lt_compat; lra).
        assert (/ c <= bpow radix2 98).
        { replace (bpow radix2 98) with (/ bpow radix2 (-98)) by (rewrite <- bpow_opp; reflexivity). apply Rinv_le_contravar; [apply bpow_gt_0|exact c0]. }
        assert (0 < / c) by (apply Rinv_0_lt_compat; lra).
        assert (/ m * / c <= 1 * bpow radix2 98) by (apply Rmult_le_compat; lra).
        change 104%Z with (6 + 98)%Z. rewrite bpow_plus. simpl (bpow radix2 6). pose proof (bpow_gt_0 radix2 98). lra. }
      assert (T98 : bpow radix2 105 = 128 * bpow radix2 98) by (change 105%Z with (7 + 98)%Z; rewrite bpow_plus; reflexivity).
      assert (T104 : bpow radix2 105 = 2 * bpow radix2 104) by (rewrite <- bpow2_S; reflexivity).
      assert (T100 : bpow radix2 100 = 4 * bpow radix2 98) by (change 100%Z with (2 + 98)%Z; rewrite bpow_plus; reflexivity).
      assert (T99 : bpow radix2 99 = 2 * bpow radix2 98) by (rewrite <- bpow2_S; reflexivity).
      assert (T4 : 4 <= bpow radix2 98) by (apply (bpow_le radix2 2); lia).
      assert (L104 : 1 <= bpow radix2 104) by (apply (bpow_le radix2 0); lia).
      assert (HV : 0 <= H * V) by (apply Rmult_le_pos; lra).
      assert (HN' : H * V <= INR N * (H * V)).
      { apply le_INR in HN. change (INR 1) with 1 in HN. rewrite <- (Rmult_1_l (H * V)) at 1. apply Rmult_le_compat_r; lra. }
      apply Forall_cons_iff in Fd as [Fxd Fd]. apply Forall_cons_iff in Fd as [Fyd Fd]. apply Forall_cons_iff in Fd as [Fzd Fd]. apply Forall_cons_iff in Fd as [Fhdd _].
      assert (Wd : Forall (within 105) [xd; yd; zd; hdd]).
      { simpl (bpow radix2 (-19)) in *. constructor; [split; [exact Fxd|lra]|]. constructor; [split; [exact Fyd|lra]|].
        constructor; [split; [exact Fzd|lra]|]. constructor; [split; [exact Fhdd|lra]|constructor]. }
      assert (S2 : Forall (fun a : f64 => Rabs (B2R (f64_f32 a)) <= 2) [g_min; g_max; r_min; r_max]).
      { constructor; [exact SG1|]. constructor; [exact SG2|]. constructor; [lra|]. constructor; [lra|constructor]. }
      assert (Ws : Forall (within 100) [f64_f32 x; f64_f32 y; f64_f32 z; f64_f32 hd; f64_f32 ga; f64_f32 ro; f64_f32 v]).
      { constructor; [split; [exact Fx|fold (f x); lra]|]. constructor; [split; [exact Fy|fold (f y); lra]|]. constructor; [split; [exact Fz|fold (f z); lra]|].
        constructor; [split; [exact Fhd|fold (f hd); lra]|]. constructor; [split; [exact Fga|fold (f ga); lra]|].
        constructor; [split; [exact Fro|fold (f ro); lra]|]. constructor; [split; [exact Fv|fold (f v); lra]|constructor]. }
      destruct (fly3_euler_raw w (with_raw e0 (affine_raw (dubins3d_f32 lm mm G_FT) dubins3d_g)) (dubins3d_f32 lm mm G_FT) xd yd zd hdd
        v_min v_max g_min g_max r_min r_max samples gr_min gr_max rr_min rr_max acc_min acc_max h
        (f64_f32 x) (f64_f32 y) (f64_f32 z) (f64_f32 hd) (f64_f32 ga) (f64_f32 ro) (f64_f32 v) gr rr acc
        eq_refl Ef Wd Sa eq_refl eq_refl Ff S2 Wc Wh Ws Fu eq_refl)
        as (x' & y' & z' & hd' & ga' & ro' & v' & R1 & R2 & [Fx' Ax] & [Fy' Ay] & [Fz' Az] & (Fh' & Rh & Nh) & (Fg' & Ag & tg & Eg) & (Fr' & Ar & tr & Err) & [Fv' Avv] & tv & Ev).
      fold o in R1, R2. split; [exact R1|].
      pose proof (entity_step_config w (with_raw e0 (affine_raw (dubins3d_f32 lm mm G_FT) dubins3d_g)) h (AArr (A1 [gr; rr; acc]))) as (K1 & _ & K2 & K3 & _).
      fold o in K1, K2, K3.
      fold (f v_min) (f v_max) (f v) in Avv, Ev. fold (f g_min) (f g_max) (f ga) in Ag, Eg. fold (f r_min) (f r_max) (f ro) in Ar, Err.
      fold (f x) in Ax. fold (f y) in Ay. fold (f z) in Az. fold (f hd) in Nh.
      rewrite clip_stop in Ag, Ar, Avv by lra.
      fold (f v_min) in SV1. fold (f v_max) in SV2. fold (f g_min) in SG1. fold (f g_max) in SG2. fold (f r_min) in SR1. fold (f r_max) in SR2.
      assert (Sz1 : Rabs (clipR (B2R gr_min) (B2R gr_max) (B2R gr)) <= C) by (apply clipR_size; assumption).
      assert (Sz2 : Rabs (clipR (B2R rr_min) (B2R rr_max) (B2R rr)) <= C) by (apply clipR_size; assumption).
      assert (Sz3 : Rabs (clipR (B2R acc_min) (B2R acc_max) (B2R acc)) <= C) by (apply clipR_size; assumption).
      set (u1 := clipR (B2R gr_min) (B2R gr_max) (B2R gr)) in *. set (u2 := clipR (B2R rr_min) (B2R rr_max) (B2R rr)) in *.
      set (u3 := clipR (B2R acc_min) (B2R acc_max) (B2R acc)) in *.
      rewrite (Rabs_pos_eq (B2R h)) in Ax, Ay, Az, Nh, Ag, Ar, Avv by lra.
      set (r := step_error3 B H V W C).
      assert (HW : 0 <= H * W) by (apply Rmult_le_pos; lra). assert (HC : 0 <= H * C) by (apply Rmult_le_pos; lra).
      assert (Sum : H * (V + W + C) = H * V + H * W + H * C) by ring.
      assert (Hd : forall (d : f64) E G, Rabs (B2R d) <= E + G -> 0 <= E -> H * G <= 1 -> B2R h * Rabs (B2R d) <= H * E + 1).
      { intros d E G P1 P2 P3. apply (Rle_trans _ (H * (E + G))); [apply Rmult_le_compat; [lra|apply Rabs_pos|lra|exact P1]|]. rewrite Rmult_plus_distr_l. lra. }
      unfold first_move in FM. unfold first_turn in FT.
      pose proof (Hd xd _ _ Sxd ltac:(lra) FM) as Hxd. pose proof (Hd yd _ _ Syd ltac:(lra) FM) as Hyd. pose proof (Hd zd _ _ Szd' ltac:(lra) FM) as Hzd.
      pose proof (Hd hdd _ _ Shd ltac:(lra) FT) as Hhd.
      assert (HuC : forall u, Rabs u <= C -> 0 <= B2R h * Rabs u <= H * C).
      { intros u Hu. split; [apply Rmult_le_pos; [lra|apply Rabs_pos]|apply Rmult_le_compat; auto using Rabs_pos; lra]. }
      pose proof (HuC u1 Sz1) as HuC1. pose proof (HuC u2 Sz2) as HuC2. pose proof (HuC u3 Sz3) as HuC3.
      assert (G1 : forall q, q <= B + V + H * (V + W + C) + 13 -> bpow radix2 (-47) * q + bpow radix2 (-699) <= r).
      { intros q Hq. unfold r, step_error3. apply Rplus_le_compat_r, Rmult_le_compat_l; [apply bpow_ge_0|exact Hq]. }
      assert (G2 : forall q, 0 <= q -> q <= B + V + H * (V + W + C) + 13 -> bpow radix2 (-48) * q + bpow radix2 (-700) <= r).
      { intros q Hq Hq'. eapply Rle_trans; [|exact (G1 q Hq')]. apply Rplus_le_compat; [apply Rmult_le_compat_r; [exact Hq|]|]; apply bpow_le; lia. }
      pose proof (Rabs_pos (f x)). pose proof (Rabs_pos (f y)). pose proof (Rabs_pos (f z)). pose proof (Rabs_pos (f hd)).
      pose proof (Rabs_pos (f ga)). pose proof (Rabs_pos (f ro)).
      assert (Hp : forall d : f64, 0 <= B2R h * Rabs (B2R d)) by (intros d; apply Rmult_le_pos; [lra|apply Rabs_pos]).
      pose proof (Hp xd). pose proof (Hp yd). pose proof (Hp zd). pose proof (Hp hdd).
      pose proof (G2 (Rabs (f x) + B2R h * Rabs (B2R xd)) ltac:(lra) ltac:(rewrite Sum; lra)) as Gx.
      pose proof (G2 (Rabs (f y) + B2R h * Rabs (B2R yd)) ltac:(lra) ltac:(rewrite Sum; lra)) as Gy.
      pose proof (G2 (Rabs (f z) + B2R h * Rabs (B2R zd)) ltac:(lra) ltac:(rewrite Sum; lra)) as Gz.
      pose proof (G2 (Rabs (f ga) + B2R h * Rabs u1 + 8) ltac:(lra) ltac:(rewrite Sum; lra)) as Gg.
      pose proof (G2 (Rabs (f ro) + B2R h * Rabs u2 + 8) ltac:(lra) ltac:(rewrite Sum; lra)) as Gr.
      pose proof (G2 (Rabs (f v) + B2R h * Rabs u3) ltac:(lra) ltac:(rewrite Sum; lra)) as Gv.
      pose proof (G1 (Rabs (f hd) + B2R h * Rabs (B2R hdd) + 8) ltac:(rewrite Sum; lra)) as Gh.
      assert (r0 : 0 <= r).
      { unfold r, step_error3. assert (0 <= H * (V + W + C)) by (rewrite Sum; lra). pose proof (bpow_ge_0 radix2 (-699)).
        assert (0 <= bpow radix2 (-47) * (B + V + H * (V + W + C) + 13)) by (apply Rmult_le_pos; [apply bpow_ge_0|lra]). lra. }
      assert (FT0 : 0 <= H * (bpow radix2 (-19) * W + bpow radix2 (-100))).
      { apply Rmult_le_pos; [lra|]. assert (0 <= bpow radix2 (-19) * W) by (apply Rmult_le_pos; [apply bpow_ge_0|lra]). lra. }
      assert (HVT : 0 <= H * V * (H * (bpow radix2 (-19) * W + bpow radix2 (-100)))) by (apply Rmult_le_pos; lra).
      assert (Er1 : r <= fly3_error B H V C m c 1).
      { unfold fly3_error. fold W. fold r. change (INR 1) with 1.
        assert (0 <= H * (1 + 2 * V + turn_lip m c)) by (apply Rmult_le_pos; lra).
        assert (0 <= H * H * V * turn_lip m c) by (apply Rmult_le_pos; [apply Rmult_le_pos; [apply Rmult_le_pos; lra|lra]|lra]).
        replace (1 * (1 + H * (1 + 2 * V + turn_lip m c) * 1 + H * H * V * turn_lip m c * (1 * 1)) * r)
          with (r + (H * (1 + 2 * V + turn_lip m c) + H * H * V * turn_lip m c) * r) by ring.
        assert (0 <= (H * (1 + 2 * V + turn_lip m c) + H * H * V * turn_lip m c) * r) by (apply Rmult_le_pos; lra). lra. }
      assert (Eh1 : r <= 1 * (1 + H * turn_lip m c * 1) * r).
      { assert (0 <= H * turn_lip m c) by (apply Rmult_le_pos; lra). assert (0 <= H * turn_lip m c * r) by (apply Rmult_le_pos; lra). lra. }
      assert (Hm : forall (d : f64) t G, Rabs (B2R d - t) <= G -> Rabs (B2R h * B2R d - B2R h * t) <= H * G).
      { intros d t G P. rewrite <- Rmult_minus_distr_l, Rabs_mult, (Rabs_pos_eq (B2R h)) by lra. apply Rmult_le_compat; auto using Rabs_pos; lra. }
      assert (Mx : forall (a' a : R) (d : f64) (t : R), Rabs (a' - (a + B2R h * B2R d)) <= r ->
        Rabs (B2R d - f v * t) <= bpow radix2 (-19) * V + bpow radix2 (-147) ->
        Rabs (a' - (a + B2R h * (f v * t))) <= fly3_error B H V C m c 1 + (H * (bpow radix2 (-19) * V + bpow radix2 (-147)) + H * V * (H * (bpow radix2 (-19) * W + bpow radix2 (-100))))).
      { intros a' a d t P1 P2. pose proof (Hm _ _ _ P2) as P3.
        replace (a' - (a + B2R h * (f v * t))) with ((a' - (a + B2R h * B2R d)) + (B2R h * B2R d - B2R h * (f v * t))) by ring.
        eapply Rle_trans; [apply Rabs_triang|]. lra. }
      assert (Sp : forall a k, Rabs a <= X -> Rabs k <= 1 -> Rabs (a + B2R h * (f v * k)) <= X + H * V).
      { intros a k P P'. eapply Rle_trans; [apply Rabs_triang|]. apply Rplus_le_compat; [exact P|]. rewrite !Rabs_mult, (Rabs_pos_eq (B2R h)) by lra.
        apply Rmult_le_compat; [lra|apply Rmult_le_pos; apply Rabs_pos|lra|]. rewrite <- (Rmult_1_r V). apply Rmult_le_compat; auto using Rabs_pos; lra. }
      unfold fly3_inv, first_move, first_turn. cbn [fly31 qx qy qz qh qg qr qv L g_lo g_hi b_lo b_hi s_lo s_hi gr_lo gr_hi br_lo br_hi ac_lo ac_hi p]. fold u1 u2 u3.
      fold W. fold r. change (INR 1) with 1. rewrite !(Rmult_1_l (H * V)).
      split; [unfold with_raw; cbn [e_dyn]; rewrite K1; reflexivity|].
      split; [unfold with_raw; cbn [e_cmin]; rewrite K2; reflexivity|].
      split; [unfold with_raw; cbn [e_cmax]; rewrite K3; reflexivity|].
      replace (f v * cos (f hd) * cos (f ga)) with (f v * (cos (f hd) * cos (f ga))) by ring.
      replace (f v * sin (f hd) * cos (f ga)) with (f v * (sin (f hd) * cos (f ga))) by ring.
      replace (- f v * sin (f ga)) with (f v * - sin (f ga)) by ring.
      split; [apply Sp; assumption|]. split; [apply Sp; assumption|]. split; [apply Sp; [assumption|apply Neg]|].
      assert (Cv : forall t, m <= clipR (f v_min) (f v_max) t <= V) by (intros t; unfold clipR, Rmin, Rmax; repeat destruct (Rle_dec _ _); lra).
      split; [apply Cv|]. split; [apply clipR_size; assumption|].
      exists x', y', z', hd', ga', ro', v'. split; [exact R2|]. split; [repeat (constructor; [assumption|]); constructor|].
      rewrite !(Rmult_1_l (H * V * _)).
      split; [eapply Mx; [eapply Rle_trans; [exact Ax|exact Gx]|exact Exd']|].
      split; [eapply Mx; [eapply Rle_trans; [exact Ay|exact Gy]|exact Eyd']|].
      split; [eapply Mx; [eapply Rle_trans; [exact Az|exact Gz]|exact Ezd']|].
      split.
      { fold wq. destruct Nh as [k Nh]. exists k. pose proof (Hm _ _ _ Ehd') as P3.
        replace (B2R hd' - (f hd + B2R h * wq + 2 * IZR k * PI)) with ((B2R hd' - (f hd + B2R h * B2R hdd + 2 * IZR k * PI)) + (B2R h * B2R hdd - B2R h * wq)) by ring.
        eapply Rle_trans; [apply Rabs_triang|]. lra. }
      split; [rewrite Rmult_1_l; lra|]. split; [rewrite Rmult_1_l; lra|]. split; [rewrite Rmult_1_l; lra|].
      split; [rewrite Ev; apply Cv|].
      assert (T47 : bpow radix2 (-47) <= 1 / 1024).
      { apply (Rle_trans _ (bpow radix2 (-10))); [apply bpow_le; lia|simpl; lra]. }
      assert (Nr : forall a b q, Rabs (a - b) <= bpow radix2 (-47) -> Rabs b <= q -> Rabs a <= q + 1 / 1024).
      { intros a b q P1 P2. replace a with ((a - b) + b) by ring. eapply Rle_trans; [apply Rabs_triang|]. lra. }
      split; [eapply Nr; [exact Err|apply clipR_size; assumption]|].
      split; [apply (Rle_trans _ (2 + 1 / 1024)); [eapply Nr; [exact Eg|apply clipR_size; assumption]|lra]|].
      pose proof pi64_bounds. apply Rabs_le. lra.
    Qed.
  End R.
End F.
