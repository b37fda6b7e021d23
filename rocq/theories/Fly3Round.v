(** One step of the three-dimensional aircraft in binary64 (C114). *)
From Coq Require Import String ZArith Reals Bool List Lra Lia.
From Flocq Require Import Core.Core IEEE754.BinarySingleNaN.
From Verif Require Import PyBase Num Arr BaseModel Dubins Spec SpecCwh NumOrdLemmas ArrLemmas BaseLemmas BaseLemmas2 BaseLemmas3 LimLemmas
  Float64 F64Wrap F64Bound F64Err SpecRound RoundCwh SpecLin LinRound WrapErr SpecFly SpecFly3 FlyRound FlyRun.
Import List ListNotations.
Local Open Scope R_scope.

(** Division by an exact number. *)
Lemma ap_div k G D (a b : f64) t g : (k <= 100)%nat -> (0 <= G <= 300)%Z -> (-1075 <= D <= -200)%Z -> ap k G D a t g ->
  is_finite b = true -> bpow radix2 (-100) <= Rabs (B2R b) ->
  ap (S k) (G + 100) (D + 103) (Bdiv mode_NE a b) (t / B2R b) (g / Rabs (B2R b)).
Proof.
  intros Hk HG HD A Fb H. pose proof (bpow_gt_0 radix2 (-100)) as P0.
  assert (Nz : B2R b <> 0) by (intros E; rewrite E, Rabs_R0 in H; lra).
  assert (Iv : / Rabs (B2R b) <= bpow radix2 100).
  { replace (bpow radix2 100) with (/ bpow radix2 (-100)) by (rewrite <- bpow_opp; reflexivity). apply Rinv_le_contravar; auto. }
  assert (Ip : 0 < / Rabs (B2R b)) by (apply Rinv_0_lt_compat; lra).
  destruct A as [F E Ht Hg]. pose proof (Rabs_pos t) as T0. pose proof (eps_pos k) as Ep.
  assert (E2 : Rabs (B2R a / B2R b - t / B2R b) <= eps k * (g / Rabs (B2R b)) + bpow radix2 (D + 100)).
  { replace (B2R a / B2R b - t / B2R b) with ((B2R a - t) * / B2R b) by (field; exact Nz). rewrite Rabs_mult, Rabs_inv.
    apply (Rle_trans _ ((eps k * g + bpow radix2 D) * / Rabs (B2R b))); [apply Rmult_le_compat_r; lra|].
    rewrite bpow_plus. pose proof (bpow_gt_0 radix2 D). unfold Rdiv. rewrite Rmult_plus_distr_r, <- Rmult_assoc. apply Rplus_le_compat_l.
    apply Rmult_le_compat_l; lra. }
  assert (T2 : Rabs (t / B2R b) <= g / Rabs (B2R b)).
  { unfold Rdiv. rewrite Rabs_mult, Rabs_inv. apply Rmult_le_compat_r; lra. }
  assert (G2 : g / Rabs (B2R b) <= bpow radix2 (G + 100)).
  { rewrite bpow_plus. unfold Rdiv. apply Rmult_le_compat; lra. }
  assert (Sz : Rabs (B2R a / B2R b) <= bpow radix2 (G + 102)).
  { replace (B2R a / B2R b) with ((B2R a / B2R b - t / B2R b) + t / B2R b) by ring. eapply Rle_trans; [apply Rabs_triang|].
    pose proof (eps_1 k ltac:(lia)). replace (G + 102)%Z with (G + 100 + 1 + 1)%Z by ring. rewrite !bpow2_S.
    assert (bpow radix2 (D + 100) <= bpow radix2 (G + 100)) by (apply bpow_le; lia).
    assert (0 <= g / Rabs (B2R b)) by (eapply Rle_trans; [apply Rabs_pos|exact T2]).
    assert (eps k * (g / Rabs (B2R b)) <= 1 * (g / Rabs (B2R b))) by (apply Rmult_le_compat_r; lra). lra. }
  pose proof (Bdiv_correct 53 1024 _ _ mode_NE a b Nz) as Q. rewrite Rlt_bool_true in Q.
  2:{ eapply Rle_lt_trans; [apply (rnd_bounded (G + 102)); [lia|exact Sz]|apply bpow_lt; lia]. }
  destruct Q as (Q1 & Q2 & _). split; [rewrite Q2; exact F| |exact T2|exact G2].
  rewrite Q1. eapply Rle_trans; [apply (round_step _ k _ (g / Rabs (B2R b)) (bpow radix2 (D + 100))); [apply bpow_ge_0|exact E2|exact T2]|].
  apply Rplus_le_compat_l. replace (D + 103)%Z with (D + 100 + 1 + 1 + 1)%Z by ring. rewrite !bpow2_S.
  assert (eta64 <= bpow radix2 (D + 100)) by (unfold eta64; apply bpow_le; lia). pose proof (bpow_gt_0 radix2 (D + 100)). lra.
Qed.

Section F.
  Variable lm : libm.
  Local Hint Extern 0 (Num f64) => exact (F64 lm) : typeclass_instances.

  Lemma ap_wrap' k G D (s : f64) t g : ap k G D s t g -> (k <= 12)%nat -> (D <= -701)%Z ->
    is_finite (wrap1 n0 s) = true /\
    angle_near (bpow radix2 (-47) * (g + 8) + bpow radix2 (-699)) (B2R (wrap1 n0 s)) t.
  Proof.
    intros A K HD. pose proof (ap_fin _ _ _ _ _ _ A) as F. split; [apply (wrap64_range lm s F)|].
    destruct (wrap64_turn lm s F) as (z & Z). exists (- z)%Z. rewrite opp_IZR.
    destruct (ap_final _ _ _ _ _ _ _ _ A ltac:(lia) ltac:(lia) eq_refl eq_refl) as [_ E].
    pose proof (ap_t _ _ _ _ _ _ A) as Tg.
    set (W := B2R (wrap1 n0 s)) in *. set (x := B2R s) in *.
    replace (W - (t + 2 * - IZR z * PI)) with ((W - (x - 2 * IZR z * PI)) + (x - t)) by ring.
    eapply Rle_trans; [apply Rabs_triang|].
    assert (X : Rabs x <= Rabs (x - t) + Rabs t) by (replace x with ((x - t) + t) at 1 by ring; apply Rabs_triang).
    pose proof (Rabs_pos t). pose proof u64_pos as [U0 U1].
    replace (bpow radix2 (-51)) with (4 * u64) in Z by (unfold u64; change (-51)%Z with (2 + -53)%Z; rewrite bpow_plus; reflexivity).
    replace (bpow radix2 (-48)) with (32 * u64) in E by (unfold u64; change (-48)%Z with (5 + -53)%Z; rewrite bpow_plus; reflexivity).
    replace (bpow radix2 (-47)) with (64 * u64) by (unfold u64; change (-47)%Z with (6 + -53)%Z; rewrite bpow_plus; reflexivity).
    replace (bpow radix2 (-699)) with (2 * bpow radix2 (-700)) by (change (-699)%Z with (-700 + 1)%Z; rewrite bpow2_S; reflexivity).
    set (dd := bpow radix2 (-700)) in *. set (u := u64) in *. assert (0 <= dd) by apply bpow_ge_0.
    assert (E3 : u * Rabs x <= u * (32 * u * g + dd + g)) by (apply Rmult_le_compat_l; lra).
    assert (0 <= u * g) by (apply Rmult_le_pos; lra).
    assert (E4 : u * (32 * u * g) <= / 1000 * (u * g)).
    { replace (u * (32 * u * g)) with (32 * u * (u * g)) by ring. apply Rmult_le_compat_r; lra. }
    assert (E5 : u * dd <= / 1000000 * dd) by (apply Rmult_le_compat_r; lra). lra.
  Qed.

  (** Clipping to limits within [-2, 2] and then wrapping changes next to nothing. *)
  Lemma clip_wrap k G D (s lo hi : f64) t g : ap k G D s t g -> (k <= 12)%nat -> (D <= -701)%Z ->
    is_finite lo = true -> is_finite hi = true -> Rabs (B2R lo) <= 2 -> Rabs (B2R hi) <= 2 ->
    let s' := wrap1 n0 (clip1 s lo hi) in
    is_finite s' = true /\ Rabs (B2R s' - clipR (B2R lo) (B2R hi) t) <= bpow radix2 (-48) * (g + 8) + bpow radix2 (-700) /\
    (exists z, Rabs (B2R s' - clipR (B2R lo) (B2R hi) z) <= bpow radix2 (-47)).
  Proof.
    intros A K HD Fl Fh Sl Sh. cbv zeta.
    pose proof (ap_fin _ _ _ _ _ _ A) as Fs. destruct (clip64 lm s lo hi Fs Fl Fh) as [Fc Ec].
    destruct (ap_final _ _ _ _ _ _ _ _ A ltac:(lia) ltac:(lia) eq_refl eq_refl) as [_ E].
    destruct (wrap64_range lm _ Fc) as [Fw Rw]. destruct (wrap64_turn lm _ Fc) as (z & Z).
    pose proof (clipR_size _ _ (B2R s) 2 Sl Sh) as Sz. rewrite <- Ec in Sz.
    set (y := B2R (clip1 s lo hi)) in *. set (W := B2R (wrap1 n0 (clip1 s lo hi))) in *.
    replace (bpow radix2 (-51)) with (4 * u64) in Z by (unfold u64; change (-51)%Z with (2 + -53)%Z; rewrite bpow_plus; reflexivity).
    pose proof u64_pos as [U0 U1].
    assert (Z2 : Rabs (W - (y - 2 * IZR z * PI)) <= 40 * u64).
    { eapply Rle_trans; [exact Z|]. assert (4 * u64 * (Rabs y + 8) <= 4 * u64 * 10) by (apply Rmult_le_compat_l; lra). lra. }
    assert (z = 0)%Z as ->.
    { pose proof pi64_bounds. assert (P : 3 < PI < 4).
      { pose proof pi64_near as Q. pose proof pi64_val as V. apply Rabs_le_inv in Q. simpl (bpow radix2 (-48)) in V. lra. }
      apply Rabs_le_inv in Z2. apply Rabs_le_inv in Sz.
      destruct (Z_lt_le_dec z 0) as [C|C]; [|destruct (Z_lt_le_dec 0 z) as [C'|C']; [|lia]]; exfalso.
      - assert (IZR z <= -1) by (apply IZR_le; lia).
        assert (IZR z * PI <= -1 * PI) by (apply Rmult_le_compat_r; lra). pose proof pi64_val as V. simpl (bpow radix2 (-48)) in V. lra.
      - assert (1 <= IZR z) by (apply IZR_le; lia).
        assert (1 * PI <= IZR z * PI) by (apply Rmult_le_compat_r; lra). pose proof pi64_val as V. simpl (bpow radix2 (-48)) in V. lra. }
    rewrite Rmult_0_r, Rmult_0_l, Rminus_0_r in Z2. split; [exact Fw|]. split.
    - replace (W - clipR (B2R lo) (B2R hi) t) with ((W - y) + (y - clipR (B2R lo) (B2R hi) t)) by ring.
      eapply Rle_trans; [apply Rabs_triang|]. pose proof (clipR_near (B2R lo) (B2R hi) (B2R s) t) as Cn. rewrite <- Ec in Cn. fold y in Cn.
      replace (bpow radix2 (-48)) with (32 * u64) in E |- * by (unfold u64; change (-48)%Z with (5 + -53)%Z; rewrite bpow_plus; reflexivity). lra.
    - exists (B2R s). rewrite <- Ec. fold y. eapply Rle_trans; [exact Z2|].
      replace (bpow radix2 (-47)) with (64 * u64) by (unfold u64; change (-47)%Z with (6 + -53)%Z; rewrite bpow_plus; reflexivity). lra.
  Qed.

  Lemma ap_tan (ro : f64) : accurate_tan lm -> is_finite ro = true -> Rabs (tan (B2R ro)) <= bpow radix2 100 ->
    ap 2 100 (-1000) (ntan ro) (tan (B2R ro)) (Rabs (tan (B2R ro))).
  Proof.
    intros At Fr Tr. destruct (At ro Fr Tr) as [F E]. split; [exact F| |apply Rle_refl|exact Tr].
    change (B2R (ntan ro)) with (B2R (lm_tan lm ro)). eapply Rle_trans; [exact E|]. apply Rplus_le_compat_r, Rmult_le_compat_r; [apply Rabs_pos|].
    replace (eps 2) with (2 * u64 + u64 * u64) by (unfold eps; ring).
    replace (bpow radix2 (-52)) with (2 * bpow radix2 (-53)) by (change (-52)%Z with (-53 + 1)%Z; rewrite bpow2_S; ring).
    fold u64. pose proof u64_pos. nra.
  Qed.
  Lemma ap_gft : ap 1 6 (-1074) (G_FT : f64) 32.17 32.17.
  Proof.
    assert (V : is_finite (G_FT : f64) = true /\ B2R (G_FT : f64) = 4527525000390902 / 2 ^ 47).
    { assert (H : B2SF (G_FT : f64) = SpecFloat.S754_finite false 4527525000390902 (-47)) by (vm_compute; reflexivity).
      split; [destruct (G_FT : f64); cbn in H; try discriminate; reflexivity|].
      rewrite (B2R_of _ _ _ _ H). unfold F2R. cbn. lra. }
    destruct V as [F E]. split; [exact F| |rewrite Rabs_pos_eq; lra|simpl; lra].
    rewrite E. replace (eps 1) with u64 by (unfold eps; ring). unfold u64. pose proof (bpow_gt_0 radix2 (-1074)).
    simpl (bpow radix2 (-53)). apply Rabs_le. simpl (2 ^ 47). lra.
  Qed.
  Lemma apm1 : ap 0 2 (-1075) (nZ (-1) : f64) (-1) 1.
  Proof. apply ap_val; [apply mone64| |lra]. rewrite Rabs_left; lra. Qed.

  Ltac apx := lazymatch goal with
    | |- ap _ _ _ (nadd _ _) _ _ => eapply nadd_ap; [apx|apx|reflexivity]
    | |- ap _ _ _ (nmul _ _) _ _ => eapply nmul_ap; [apx|apx|reflexivity]
    | |- ap _ _ _ n0 _ _ => apply ap0
    | |- ap _ _ _ n1 _ _ => apply ap1
    | |- ap _ _ _ (nZ (-1)) _ _ => apply apm1
    | |- ap _ _ _ (limited_dot _ _ _ _ _ _) _ _ => eapply stop64; [eassumption|eassumption|eassumption|apx]
    | |- _ => eassumption
    end.

  Lemma fly3_euler (w : world f64) (e : entity f64) v_min v_max g_min g_max r_min r_max samples gr_min gr_max rr_min rr_max acc_min acc_max
      h x y z hd ga ro v (gr rr acc : f64) :
    accurate lm -> accurate_tan lm -> e_dyn e = dubins3d_dyn G_FT v_min v_max g_min g_max r_min r_max samples "Euler" -> (samples <= 0)%Z ->
    e_cmin e = A1 [gr_min; rr_min; acc_min] -> e_cmax e = A1 [gr_max; rr_max; acc_max] ->
    Forall (fun a : f64 => is_finite (f64_f32 a) = true) [v_min; v_max; g_min; g_max; r_min; r_max] ->
    Forall (fun a : f64 => Rabs (B2R (f64_f32 a)) <= 2) [g_min; g_max; r_min; r_max] ->
    Forall (within 100) [gr_min; gr_max; rr_min; rr_max; acc_min; acc_max] -> within 100 h -> Forall (within 100) [x; y; z; hd; ga; ro; v] ->
    bpow radix2 (-100) <= Rabs (B2R v) -> Rabs (tan (B2R ro)) <= bpow radix2 100 ->
    Forall (fun f : f64 => is_finite f = true) [gr; rr; acc] -> e_state e = A1 [x; y; z; hd; ga; ro; v] ->
    let o := entity_step w e h (AArr (A1 [gr; rr; acc])) in
    let f a := B2R (f64_f32 a) in
    let u1 := clipR (B2R gr_min) (B2R gr_max) (B2R gr) in
    let u2 := clipR (B2R rr_min) (B2R rr_max) (B2R rr) in
    let u3 := clipR (B2R acc_min) (B2R acc_max) (B2R acc) in
    let H := B2R h in let X := B2R x in let Y := B2R y in let Zz := B2R z in let HD := B2R hd in let GA := B2R ga in let RO := B2R ro in let V := B2R v in
    exists x' y' z' hd' ga' ro' v', o_res o = Ok tt /\ e_state (o_entity o) = A1 [x'; y'; z'; hd'; ga'; ro'; v'] /\
      agrees x' (X + H * (V * cos HD * cos GA)) (Rabs X + Rabs H * Rabs V) /\
      agrees y' (Y + H * (V * sin HD * cos GA)) (Rabs Y + Rabs H * Rabs V) /\
      agrees z' (Zz + H * (- V * sin GA)) (Rabs Zz + Rabs H * Rabs V) /\
      (is_finite hd' = true /\ - pi64 <= B2R hd' <= pi64 /\
       angle_near (bpow radix2 (-47) * (Rabs HD + Rabs H * (32.17 / Rabs V * Rabs (tan RO)) + 8) + bpow radix2 (-699)) (B2R hd')
         (HD + H * (32.17 / V * tan RO))) /\
      (is_finite ga' = true /\
       Rabs (B2R ga' - clipR (f g_min) (f g_max) (GA + H * stopR (f g_min) (f g_max) GA u1)) <=
         bpow radix2 (-48) * (Rabs GA + Rabs H * Rabs u1 + 8) + bpow radix2 (-700) /\
       (exists t, Rabs (B2R ga' - clipR (f g_min) (f g_max) t) <= bpow radix2 (-47))) /\
      (is_finite ro' = true /\
       Rabs (B2R ro' - clipR (f r_min) (f r_max) (RO + H * stopR (f r_min) (f r_max) RO u2)) <=
         bpow radix2 (-48) * (Rabs RO + Rabs H * Rabs u2 + 8) + bpow radix2 (-700) /\
       (exists t, Rabs (B2R ro' - clipR (f r_min) (f r_max) t) <= bpow radix2 (-47))) /\
      agrees v' (clipR (f v_min) (f v_max) (V + H * stopR (f v_min) (f v_max) V u3)) (Rabs V + Rabs H * Rabs u3) /\
      (exists t, B2R v' = clipR (f v_min) (f v_max) t).
  Proof.
    intros Ac At Ed Sa C1 C2 Ff S2 Wc Wh Ws Vp Tb Fu Es o f u1 u2 u3 H X Y Zz HD GA RO V.
    apply Forall_cons_iff in Ff as [Fv1 Ff]. apply Forall_cons_iff in Ff as [Fv2 Ff]. apply Forall_cons_iff in Ff as [Fg1 Ff].
    apply Forall_cons_iff in Ff as [Fg2 Ff]. apply Forall_cons_iff in Ff as [Fr1 Ff]. apply Forall_cons_iff in Ff as [Fr2 _].
    apply Forall_cons_iff in S2 as [Sg1 S2]. apply Forall_cons_iff in S2 as [Sg2 S2]. apply Forall_cons_iff in S2 as [Sr1 S2].
    apply Forall_cons_iff in S2 as [Sr2 _].
    apply Forall_cons_iff in Wc as [Wc1 Wc]. apply Forall_cons_iff in Wc as [Wc2 Wc]. apply Forall_cons_iff in Wc as [Wc3 Wc].
    apply Forall_cons_iff in Wc as [Wc4 Wc]. apply Forall_cons_iff in Wc as [Wc5 Wc]. apply Forall_cons_iff in Wc as [Wc6 _].
    apply Forall_cons_iff in Ws as [Wx Ws]. apply Forall_cons_iff in Ws as [Wy Ws]. apply Forall_cons_iff in Ws as [Wz Ws].
    apply Forall_cons_iff in Ws as [Whd Ws]. apply Forall_cons_iff in Ws as [Wga Ws]. apply Forall_cons_iff in Ws as [Wro Ws].
    apply Forall_cons_iff in Ws as [Wv _].
    apply Forall_cons_iff in Fu as [Fgr Fu]. apply Forall_cons_iff in Fu as [Frr Fu]. apply Forall_cons_iff in Fu as [Facc _].
    destruct (clip_within lm gr gr_min gr_max Fgr Wc1 Wc2) as [Wu1 Eu1].
    destruct (clip_within lm rr rr_min rr_max Frr Wc3 Wc4) as [Wu2 Eu2].
    destruct (clip_within lm acc acc_min acc_max Facc Wc5 Wc6) as [Wu3 Eu3].
    fold u1 in Eu1. fold u2 in Eu2. fold u3 in Eu3.
    set (a1 := clip1 gr gr_min gr_max) in *. set (a2 := clip1 rr rr_min rr_max) in *. set (a3 := clip1 acc acc_min acc_max) in *.
    destruct (Ac hd ltac:(exact (proj1 Whd))) as [[Fc Ec] [Fs Es']].
    destruct (Ac ga ltac:(exact (proj1 Wga))) as [[Fcg Ecg] [Fsg Esg]].
    pose proof (ap_trig (ncos hd) _ Fc Ec ltac:(apply Rabs_le; apply COS_bound)) as Acos.
    pose proof (ap_trig (nsin hd) _ Fs Es' ltac:(apply Rabs_le; apply SIN_bound)) as Asin.
    pose proof (ap_trig (ncos ga) _ Fcg Ecg ltac:(apply Rabs_le; apply COS_bound)) as Acosg.
    pose proof (ap_trig (nsin ga) _ Fsg Esg ltac:(apply Rabs_le; apply SIN_bound)) as Asing.
    pose proof (ap_tan ro At (proj1 Wro) Tb) as Atan.
    pose proof (ap_div 1 6 (-1074) G_FT v 32.17 32.17 ltac:(lia) ltac:(lia) ltac:(lia) ap_gft (proj1 Wv) Vp : ap _ _ _ (ndiv G_FT v) _ _) as Adiv.
    change (6 + 100)%Z with 106%Z in Adiv. change (-1074 + 103)%Z with (-971)%Z in Adiv.
    pose proof (ap_in x 100 Wx) as Ax. pose proof (ap_in y 100 Wy) as Ay. pose proof (ap_in z 100 Wz) as Az.
    pose proof (ap_in hd 100 Whd) as Ahd. pose proof (ap_in ga 100 Wga) as Aga. pose proof (ap_in ro 100 Wro) as Aro. pose proof (ap_in v 100 Wv) as Av.
    pose proof (ap_in h 100 Wh) as Ah. pose proof (ap_in a1 100 Wu1) as Au1. pose proof (ap_in a2 100 Wu2) as Au2. pose proof (ap_in a3 100 Wu3) as Au3.
    pose proof (proj1 Wv) as Fv. pose proof (proj1 Wga) as Fga. pose proof (proj1 Wro) as Fro.
    set (gv := ndiv G_FT v) in *. set (tr := ntan ro) in *.
    pose (zr := nadd (nadd (nadd n0 (nmul n0 a1)) (nmul n0 a2)) (nmul n0 a3)).
    pose (r1 := nadd (nmul (nmul v (ncos hd)) (ncos ga)) zr).
    pose (r2 := nadd (nmul (nmul v (nsin hd)) (ncos ga)) zr).
    pose (r3 := nadd (nmul (nmul (nZ (-1)) v) (nsin ga)) zr).
    pose (r4 := nadd (nmul gv tr) zr).
    pose (r5 := nadd n0 (nadd (nadd (nadd n0 (nmul n1 a1)) (nmul n0 a2)) (nmul n0 a3))).
    pose (r6 := nadd n0 (nadd (nadd (nadd n0 (nmul n0 a1)) (nmul n1 a2)) (nmul n0 a3))).
    pose (r7 := nadd n0 (nadd (nadd (nadd n0 (nmul n0 a1)) (nmul n0 a2)) (nmul n1 a3))).
    pose (r5' := limited_dot (nf32 g_min) (nf32 g_max) nninf npinf ga r5).
    pose (r6' := limited_dot (nf32 r_min) (nf32 r_max) nninf npinf ro r6).
    pose (r7' := limited_dot (nf32 v_min) (nf32 v_max) nninf npinf v r7).
    assert (B1 : exists k G D t g, ap k G D (nadd x (nmul h r1)) t g /\ (k <= 12)%nat /\ (D <= -701)%Z /\ is_finite r1 = true /\
      t = X + H * (V * cos HD * cos GA) /\ g = Rabs X + Rabs H * Rabs V).
    { unfold r1, zr. do 5 eexists. split; [apx|]. split; [cbn; lia|]. split; [cbn; lia|]. split; [eapply ap_fin; apx|].
      unfold X, H, V, HD, GA. split; ring. }
    assert (B2 : exists k G D t g, ap k G D (nadd y (nmul h r2)) t g /\ (k <= 12)%nat /\ (D <= -701)%Z /\ is_finite r2 = true /\
      t = Y + H * (V * sin HD * cos GA) /\ g = Rabs Y + Rabs H * Rabs V).
    { unfold r2, zr. do 5 eexists. split; [apx|]. split; [cbn; lia|]. split; [cbn; lia|]. split; [eapply ap_fin; apx|].
      unfold Y, H, V, HD, GA. split; ring. }
    assert (B3 : exists k G D t g, ap k G D (nadd z (nmul h r3)) t g /\ (k <= 12)%nat /\ (D <= -701)%Z /\ is_finite r3 = true /\
      t = Zz + H * (- V * sin GA) /\ g = Rabs Zz + Rabs H * Rabs V).
    { unfold r3, zr. do 5 eexists. split; [apx|]. split; [cbn; lia|]. split; [cbn; lia|]. split; [eapply ap_fin; apx|].
      unfold Zz, H, V, GA. split; ring. }
    assert (B4 : exists k G D t g, ap k G D (nadd hd (nmul h r4)) t g /\ (k <= 12)%nat /\ (D <= -701)%Z /\ is_finite r4 = true /\
      t = HD + H * (32.17 / V * tan RO) /\ g = Rabs HD + Rabs H * (32.17 / Rabs V * Rabs (tan RO))).
    { unfold r4, zr. do 5 eexists. split; [apx|]. split; [cbn; lia|]. split; [cbn; lia|]. split; [eapply ap_fin; apx|].
      unfold H, V, HD, RO. split; ring. }
    assert (B5 : exists k G D t g, ap k G D (nadd ga (nmul h r5')) t g /\ (k <= 12)%nat /\ (D <= -701)%Z /\ is_finite r5 = true /\
      t = GA + H * stopR (f g_min) (f g_max) GA u1 /\ g = Rabs GA + Rabs H * Rabs u1).
    { unfold r5', r5. do 5 eexists. split; [apx|]. split; [cbn; lia|]. split; [cbn; lia|]. split; [eapply ap_fin; apx|].
      rewrite <- Eu1. unfold H, GA, f. split; [|ring]. do 3 f_equal. ring. }
    assert (B6 : exists k G D t g, ap k G D (nadd ro (nmul h r6')) t g /\ (k <= 12)%nat /\ (D <= -701)%Z /\ is_finite r6 = true /\
      t = RO + H * stopR (f r_min) (f r_max) RO u2 /\ g = Rabs RO + Rabs H * Rabs u2).
    { unfold r6', r6. do 5 eexists. split; [apx|]. split; [cbn; lia|]. split; [cbn; lia|]. split; [eapply ap_fin; apx|].
      rewrite <- Eu2. unfold H, RO, f. split; [|ring]. do 3 f_equal. ring. }
    assert (B7 : exists k G D t g, ap k G D (nadd v (nmul h r7')) t g /\ (k <= 12)%nat /\ (D <= -701)%Z /\ is_finite r7 = true /\
      t = V + H * stopR (f v_min) (f v_max) V u3 /\ g = Rabs V + Rabs H * Rabs u3).
    { unfold r7', r7. do 5 eexists. split; [apx|]. split; [cbn; lia|]. split; [cbn; lia|]. split; [eapply ap_fin; apx|].
      rewrite <- Eu3. unfold H, V, f. split; [|ring]. do 3 f_equal. ring. }
    destruct B1 as (k1 & G1 & D1 & t1 & g1 & B1 & K1 & L1 & F1 & -> & ->).
    destruct B2 as (k2 & G2 & D2 & t2 & g2 & B2 & K2 & L2 & F2 & -> & ->).
    destruct B3 as (k3 & G3 & D3 & t3 & g3 & B3 & K3 & L3 & F3 & -> & ->).
    destruct B4 as (k4 & G4 & D4 & t4 & g4 & B4 & K4 & L4 & F4 & -> & ->).
    destruct B5 as (k5 & G5 & D5 & t5 & g5 & B5 & K5 & L5 & F5 & -> & ->).
    destruct B6 as (k6 & G6 & D6 & t6 & g6 & B6 & K6 & L6 & F6 & -> & ->).
    destruct B7 as (k7 & G7 & D7 & t7 & g7 & B7 & K7 & L7 & F7 & -> & ->).
    destruct (f32_const lm) as (I1 & I2 & I3 & I4).
    destruct (euler_list w e h [x; y; z; hd; ga; ro; v] [gr; rr; acc] [r1; r2; r3; r4; r5'; r6'; r7']
      [nnan; nnan; nnan; n0; n0; n0; nnan]) as (R1 & _ & R3).
    all: try (rewrite Ed; try reflexivity; try exact Sa).
    all: try (exact Es || reflexivity || (rewrite C1; reflexivity) || (rewrite C2; reflexivity)).
    { rewrite C1, C2. cbn [map clip_list expand length]. fold a1 a2 a3.
      erewrite csd_list with (r := [r1; r2; r3; r4; r5; r6; r7]).
      2-7: reflexivity.
      cbn [expand lim_list map dubins3d_dyn d_min d_max d_sdmin d_sdmax length repeat no_min no_max]. rewrite I1, I2.
      rewrite (stop_free lm x r1), (stop_free lm y r2), (stop_free lm z r3), (stop_free lm hd r4) by (assumption || apply Wx || apply Wy || apply Wz || apply Whd).
      reflexivity. }
    cbn [length] in R3. rewrite Ed in R3. cbn [dubins3d_dyn d_min d_max expand map clip_list zipw wrap_list] in R3.
    rewrite I1, I2 in R3.
    change (nisnan (nnan : f64)) with true in R3. replace (nisnan (n0 : f64)) with false in R3 by (symmetry; apply (nan_fin lm), (zero64 lm)).
    cbv iota in R3.
    rewrite (proj1 (fin_free lm _ (ap_fin _ _ _ _ _ _ B1))), (proj1 (fin_free lm _ (ap_fin _ _ _ _ _ _ B2))),
      (proj1 (fin_free lm _ (ap_fin _ _ _ _ _ _ B3))), (proj1 (fin_free lm _ (ap_fin _ _ _ _ _ _ B4))) in R3.
    destruct (clip64 lm _ _ _ (ap_fin _ _ _ _ _ _ B7) Fv1 Fv2) as [Fv' Ev'].
    destruct (ap_wrap' _ _ _ _ _ _ B4 K4 L4) as [Fw Nw].
    pose proof (clip_wrap _ _ _ _ _ _ _ _ B5 K5 L5 Fg1 Fg2 Sg1 Sg2) as Wg.
    pose proof (clip_wrap _ _ _ _ _ _ _ _ B6 K6 L6 Fr1 Fr2 Sr1 Sr2) as Wr.
    do 7 eexists. split; [exact R1|]. split; [exact R3|].
    split; [eapply ap_final; [exact B1|lia|lia|reflexivity|reflexivity]|].
    split; [eapply ap_final; [exact B2|lia|lia|reflexivity|reflexivity]|].
    split; [eapply ap_final; [exact B3|lia|lia|reflexivity|reflexivity]|].
    split; [split; [exact Fw|]; split; [apply (wrap64_range lm _ (ap_fin _ _ _ _ _ _ B4))|exact Nw]|].
    split; [exact Wg|]. split; [exact Wr|].
    split; [|eexists; exact Ev'].
    destruct (ap_final _ _ _ _ _ _ _ _ B7 ltac:(lia) ltac:(lia) eq_refl eq_refl) as [_ Q].
    split; [exact Fv'|]. eapply Rle_trans; [|exact Q]. eapply Rle_trans; [|apply clipR_near]. right. do 2 f_equal. exact Ev'.
  Qed.
End F.
