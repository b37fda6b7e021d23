(** Corollaries and concrete runs for Properties_F16. *)
From Coq Require Import String List ZArith Reals Lra Lia Bool.
From Flocq Require Import Core.Core IEEE754.BinarySingleNaN.
From Verif Require Import PyBase Num XReal Float64 XTac Aero Morelli F16 SpecAero SpecF16 SpecF16Ctl
  SpecMorelli SpecTrim AeroLemmas AeroProps F16Lemmas F16Lemmas2 F16Props F16Sym F16Ctl F16CtlProps
  MorelliLemmas F16Trim F16Total.
Import List ListNotations.
Local Open Scope R_scope.
Local Hint Extern 0 (Num xr) => exact (XR Fin) : typeclass_instances.

Lemma f16_moments x u model adj : known_model model = true -> cos (a_theta x) <> 0 ->
  a_vt x <> 0 -> cos (a_beta x) <> 0 -> a_alt x < 142247 ->
  exists c1 c2 c3 c4 c5 c6 d Q t xd nz ny az ay p' q' r' fz fy,
    coefficients model x u c1 c2 c3 c4 c5 c6 /\ environment x d Q t /\
    subf16_model (state_of x) (control_of u) model adj = Ok (xd, Fin nz, Fin ny, Fin az, Fin ay) /\
    nth 6 xd NaN = Fin p' /\ nth 7 xd NaN = Fin q' /\ nth 8 xd NaN = Fin r' /\
    (p', q', r') = rotation_rate (a_p x) (a_q x) (a_r x) Q
      (c4 + half_span x * (d 4%nat * a_r x + d 5%nat * a_p x))
      (c5 + half_chord x * a_q x * d 6%nat)
      (c6 + half_span x * (d 7%nat * a_r x + d 8%nat * a_p x)) /\
    fz = 0.00157 * (300 * Q * (c3 + half_chord x * a_q x * d 3%nat)) /\
    fy = 0.00157 * (300 * Q * (c2 + half_span x * (d 1%nat * a_r x + d 2%nat * a_p x))) /\
    az = fz - 15 * q' /\ ay = fy + (if adj then 15 * r' else 0) /\
    nz = - az / 32.17 - 1 /\ ny = ay / 32.17.
Proof.
  intros Hm Hct Hv Hcb Ha.
  destruct (f16_equations x u model adj Hm Hct Hv Hcb Ha)
    as [c1 [c2 [c3 [c4 [c5 [c6 [d [Q [t [xd [nz [ny [zo [yo [v' [a' [b' [fx [fy [fz [p' [q'
       [r' [Hc [He [E [_ [_ [_ [_ [G6 [G7 [G8 [_ [_ [_ [Hfy [Hfz [HR [Hzo [Hyo [Hnz Hny]]]]]]]]]]]]]]]]]]]]]]]]]]]]]]]]]]]]]]]]]].
  exists c1, c2, c3, c4, c5, c6, d, Q, t, xd, nz, ny, zo, yo, p', q', r', fz, fy.
  repeat (split; [assumption|]). assumption.
Qed.

Lemma morelli_no_rates x u adj : cos (a_theta x) <> 0 -> a_vt x <> 0 -> cos (a_beta x) <> 0 ->
  a_alt x < 142247 -> a_p x = 0 -> a_q x = 0 -> a_r x = 0 ->
  exists c1 c2 c3 c4 c5 c6 d Q t xd nz ny az ay q',
    morelli_coefficients x u c1 c2 c3 c4 c5 c6 /\ environment x d Q t /\
    subf16_model (state_of x) (control_of u) "morelli" adj
      = Ok (xd, nz, ny, Fin az, ay) /\ nth 7 xd NaN = Fin q' /\
    az + 15 * q' = 0.00157 * (300 * Q * c3).
Proof.
  intros Hct Hv Hcb Ha Hp Hq Hr.
  destruct (f16_moments x u "morelli" adj eq_refl Hct Hv Hcb Ha)
    as [c1 [c2 [c3 [c4 [c5 [c6 [d [Q [t [xd [nz [ny [az [ay [p' [q' [r' [fz [fy [Hc [He [E
       [G6 [G7 [G8 [HR [Hfz [Hfy [Haz _]]]]]]]]]]]]]]]]]]]]]]]]]]]]].
  exists c1, c2, c3, c4, c5, c6, d, Q, t, xd, (Fin nz), (Fin ny), az, (Fin ay), q'.
  split; [exact Hc|]. split; [exact He|]. split; [exact E|]. split; [exact G7|].
  rewrite Haz, Hfz, Hq. ring.
Qed.

Lemma clf16_cost s x u k c model adj :
  let y := constrained k c (s_thr (candidate_surfaces s u)) (candidate_state s x) in
  let v := candidate_surfaces s u in
  (1 <= k <= 4)%Z -> -1 <= q_singamma c <= 1 ->
  known_model model = true -> cos (a_theta y) <> 0 ->
  a_vt y <> 0 -> cos (a_beta y) <> 0 -> a_alt y < 142247 ->
  exists d nz ny az ay J,
    subf16_model (state_of y) (control_of v) model adj
    = Ok (state_of d, Fin nz, Fin ny, Fin az, Fin ay) /\
    clf16 (candidate_vec s) (state_of x) (control_of u) (const_of c k) model adj
    = Ok (Fin J, state_of y, control_of v) /\
    J = scaled (penalty (residuals k c y d)) /\ 0 <= J /\
    (J = 0 <-> Forall (fun wr => snd wr = 0) (residuals k c y d)).
Proof.
  intros y v Hk Hs Hm Hct Hv Hcb Ha.
  destruct (clf16_fin s x u k c model adj Hk Hs Hm Hct Hv Hcb Ha) as [d [nz [ny [az [ay [E1 E2]]]]]].
  exists d, nz, ny, az, ay. eexists. split; [exact E1|]. split; [exact E2|]. split; [reflexivity|].
  fold y. pose proof (weights_pos k c y d) as Hw.
  destruct (scaled_pos _ (penalty_pos _ Hw)) as [H1 H2]. split; [exact H1|].
  rewrite H2. apply penalty_zero, Hw.
Qed.

Definition turning : request :=
  {| q_gamma := 0.1; q_singamma := 0.0998; q_roll := 0; q_pitch := 0; q_turn := 0.3; q_bank := 0;
     q_pull := 0 |}.
Definition cruising : airframe :=
  {| a_vt := 500; a_alpha := 0; a_beta := 0; a_phi := 0; a_theta := 0; a_psi := 0;
     a_p := 0; a_q := 0; a_r := 0; a_pn := 0; a_pe := 0; a_alt := 0; a_pow := 9 |}.
Definition climbing : airframe :=
  {| a_vt := 500; a_alpha := 0.2; a_beta := 0; a_phi := 0; a_theta := 0.3; a_psi := 1;
     a_p := 0; a_q := 0; a_r := 0; a_pn := 0; a_pe := 0; a_alt := 0; a_pow := 9 |}.
Definition nose_up (a : R) : airframe :=
  {| a_vt := 502; a_alpha := a; a_beta := 0; a_phi := 0; a_theta := a; a_psi := 0;
     a_p := 0; a_q := 0; a_r := 0; a_pn := 0; a_pe := 0; a_alt := 1000; a_pow := 9 |}.
Definition upright : airframe :=
  {| a_vt := 500; a_alpha := 0; a_beta := 0; a_phi := 0; a_theta := PI / 2; a_psi := 0;
     a_p := 0; a_q := 0; a_r := 0; a_pn := 0; a_pe := 0; a_alt := 0; a_pow := 9 |}.

Lemma vertical_raises : exists x, forall u model adj, known_model model = true ->
  subf16_model (state_of x) (control_of u) model adj = Err ZeroDivisionError.
Proof. exists upright. intros u model adj Hm. apply subf16_vertical; [exact Hm|]. exact cos_PI2. Qed.

Lemma conf16_unknown : exists k c x u, (k < 1 \/ 4 < k)%Z /\
  is_ok (conf16 (state_of x) (control_of u) (const_of c k)) = true.
Proof. exists 7%Z, turning, cruising, idle. split; [lia|]. rewrite conf16_fin. reflexivity. Qed.

Lemma cos_small t : 0 <= t <= 1 -> cos t <> 0.
Proof. intros H. pose proof PI2_1. apply Rgt_not_eq, cos_gt_0; lra. Qed.

Lemma C56_ex :
  get_u_deg (map Fin [0; 0; 0; 5]) (closed_state (nose_up 0.1) 0 0 0 [])
  = Ok (map Fin [0.0611; 0; 0; 0; 0; 0; 0; 0],
        map Fin [1; -0.7496 + 156.8801506723475 * 0.0611; 0; 0]).
Proof.
  rewrite (get_u_deg_fin (nose_up 0.1) 0 0 0 [] _ 5) by (cbn; lia || reflexivity).
  unfold throttle, elevator, aileron, rudder, clamp.
  cbn [nose_up a_alpha a_q a_beta a_p a_r map].
  apply f_equal, f_equal2; fin_list; try lra;
    unfold Rmin; destruct (Rle_dec _ _); unfold Rmax; destruct (Rle_dec _ _); lra.
Qed.
Lemma C56_ex2 :
  get_u_deg (map Fin [0; 0; 0; -1]) (closed_state trim 0 0 1 [])
  = Ok (map Fin [0; 0; 0; 0; 0; 0; 0; 1], map Fin [0; -0.7496; 17.15997; 30]).
Proof.
  rewrite (get_u_deg_fin trim 0 0 1 [] _ (-1)) by (cbn; lia || reflexivity).
  unfold throttle, elevator, aileron, rudder, clamp.
  cbn [trim a_alpha a_q a_beta a_p a_r map].
  apply f_equal, f_equal2; fin_list; try lra;
    unfold Rmin; destruct (Rle_dec _ _); unfold Rmax; destruct (Rle_dec _ _); lra.
Qed.

Lemma C57_ex : exists xd urad nz ps nyr,
  controlled_f16 (closed_state trim 0 0 0 [Fin 7; Fin 8]) (map Fin [1; 2; 3; 0]) "stevens" false
    = Ok (xd, urad, Fin nz, Fin ps, nyr) /\
  length xd = 18%nat /\ nth 13 xd NaN = Fin (nz - 1) /\ nth 14 xd NaN = Fin (0 - 2) /\
  nth 17 xd NaN = Fin (0 / 1) /\ urad = map Fin [0.1395; radians (-0.7496); radians 0; radians 0; 1; 2; 3].
Proof.
  destruct (controlled_fin trim 0 0 0 [Fin 7; Fin 8] 1 2 3 0 "stevens") as [xd [nz [ny [az [ay [E0 E]]]]]];
    try reflexivity; try (cbn; rewrite ?cos_0; lra).
  { cbn. apply cos_small. lra. }
  pose proof (subf16_length _ _ _ _ _ _ _ _ _ E0) as L.
  do 5 eexists. split; [exact E|].
  rewrite !app_length, L. split; [reflexivity|].
  do 13 (destruct xd as [|? xd]; [cbn in L; lia|]). destruct xd; [|cbn in L; lia].
  cbn [app nth map repeat length]. split; [reflexivity|]. split.
  { unfold stability_roll_rate. cbn [trim a_p a_r a_alpha]. f_equal. ring. }
  split; [reflexivity|].
  unfold throttle, elevator, aileron, rudder. cbn [trim a_alpha a_beta a_q a_p a_r].
  rewrite !clamp_inside by lra. unfold radians. fin_list; lra.
Qed.

Lemma C58_ex : exists out,
  subf16_model (state_of climbing) (control_of idle) "morelli" true = Ok out /\
  comp out 11 = Fin (500 * sin (0.3 - 0.2)).
Proof.
  destruct (climb_rate climbing idle "morelli" true) as [out [E H]]; try reflexivity.
  - cbn. apply cos_small. lra.
  - exists out. split; [exact E|exact H].
Qed.

Lemma C59_ex : exists xd nz ny az ay c1 c3 Q t a' v',
  subf16_model (state_of cruising) (control_of idle) "stevens" true
    = Ok (xd, Fin nz, Fin ny, Fin az, Fin ay) /\
  cx (Fin (0 * 57.29578)) (Fin 0) = Ok (Fin c1) /\ cz (Fin (0 * 57.29578)) (Fin (0 * 57.29578)) (Fin 0) = Ok (Fin c3) /\
  0 < Q /\ nth 0 xd NaN = Fin v' /\ nth 1 xd NaN = Fin a' /\
  v' = 0.00157 * (300 * Q * c1 + t) /\ 500 * a' = 0.00157 * (300 * Q * c3) + 32.17.
Proof.
  destruct (f16_equations cruising idle "stevens" true)
    as [c1 [c2 [c3 [c4 [c5 [c6 [d [Q [t [xd [nz [ny [zo [yo [v' [a' [b' [fx [fy [fz [p' [q'
       [r' [Hc [He [E [_ [G0 [G1 [_ [G6 [G7 [G8 [_ [HN [Hfx [Hfy [Hfz _]]]]]]]]]]]]]]]]]]]]]]]]]]]]]]]]]]]]]];
    try (cbn; try rewrite cos_0; reflexivity || lra).
  exists xd, nz, ny, zo, yo, c1, c3, Q, t, a', v'.
  destruct Hc as [H1 [_ [H3 _]]]. destruct He as [_ [mach [HQ _]]].
  split; [exact E|]. split; [exact H1|]. split; [exact H3|].
  cbn [a_vt a_alt cruising] in HQ. rewrite adc_fin in HQ by lra. injection HQ. intros EQ _.
  split.
  { rewrite <- EQ. assert (0 < density 0); [|lra].
    unfold density. apply Rmult_lt_0_compat; [lra|]. apply exp_pos. }
  split; [exact G0|]. split; [exact G1|].
  unfold velocity_rate, newton, body_velocity, half_chord in *.
  cbn [cruising a_vt a_alpha a_beta a_theta a_phi a_p a_q a_r] in *.
  rewrite sin_0, cos_0 in HN. injection HN. intros N3 _ N1. split; lra.
Qed.

Lemma C76_ex : rotation_rate 0 1 0 0 0 0 0 = (0.00026272, 0, 0.0025392).
Proof. unfold rotation_rate. repeat apply f_equal2; lra. Qed.

Lemma C60_ex : exists xd nz az,
  subf16_model (state_of trim) (control_of trim_surfaces) "morelli" true
    = Ok (xd, Fin nz, Fin 0, Fin az, Fin 0) /\
  map (fun i => nth i xd NaN) [2; 3; 5; 6; 8]%nat = repeat (Fin 0) 5.
Proof.
  apply f16_symmetric; try reflexivity; try (cbn; lra). cbn. apply cos_small. lra.
Qed.

Lemma C61_ex :
  Morellif16 (Fin 0) (Fin 0) (Fin 0) (Fin 0) (Fin 0) (Fin 0) (Fin 0) (Fin 0) (Fin 11.32)
    (Fin 30) (Fin 500) (Fin 0.35) (Fin 0.35)
  = (Fin (-0.01943367), Fin 0, Fin (-0.1378278), Fin 0, Fin (-0.0202937), Fin 0) /\
  within (-10) 45 2 = 45 * PI / 180 /\ within (-10) 45 0.5 = 0.5.
Proof.
  pose proof PI_4 as H4. pose proof PI2_3_2 as H3.
  split; [|split; [apply within_above; lra|apply within_inside; lra]].
  rewrite morelli_poly by lra. rewrite !(within_inside _ _ 0) by lra.
  unfold morelli, fin6. repeat apply f_equal2; apply f_equal; polys; lra.
Qed.

Lemma C67_ex :
  conf16 (state_of cruising) (control_of trim_surfaces) (const_of turning 3)
  = Ok (map Fin [500; 0; 0; 0; 0; 0; 0; 0; 0.3; 0; 0; 0; 64.94 * 0.1395]).
Proof.
  rewrite conf16_fin. unfold constrained, rates_of, power_of, state_of.
  cbn [cruising trim_surfaces turning with_attitude map q_turn s_thr
    a_vt a_alpha a_beta a_phi a_theta a_psi a_p a_q a_r a_pn a_pe a_alt a_pow].
  rewrite sin_0, cos_0. destruct (Rle_dec 0.1395 0.77); [|lra]. fin_list; lra.
Qed.

Lemma C75_ex : exists out,
  subf16_model (state_of pitching) (control_of idle) "stevens" true = Ok out /\
  comp out 3 = Fin 0 /\ comp out 4 = Fin 1 /\ comp out 5 = Fin 0.
Proof.
  destruct (f16_kin pitching idle "stevens" true) as [out [f' [t' [s' [E [K3 [K4 [K5 H]]]]]]]];
    [reflexivity|cbn; rewrite cos_0; lra|].
  exists out. split; [exact E|].
  destruct (rates_inj 0 0 f' t' s' 0 1 0) as [-> [-> ->]]; [rewrite cos_0; lra| |].
  - unfold rates_of in *. cbn [pitching a_phi a_theta a_p a_q a_r] in H. rewrite H.
    rewrite sin_0, cos_0. repeat apply f_equal2; ring.
  - repeat split; assumption.
Qed.

Lemma C77_ex : exists d nz ny az ay,
  subf16_model (state_of cruising) (control_of idle) "morelli" false
  = Ok (state_of d, Fin nz, Fin ny, Fin az, Fin ay) /\ a_pn d = 500 /\ a_pe d = 0.
Proof.
  assert (H : cos (a_theta cruising) <> 0) by (cbn; rewrite cos_0; lra).
  destruct (f16_all cruising idle "morelli" false eq_refl H) as [d [nz [ny [az [ay E]]]]];
    try (cbn; rewrite ?cos_0; lra).
  exists d, nz, ny, az, ay. split; [exact E|].
  destruct (f16_nav cruising idle "morelli" false eq_refl H) as [out [n [e [h [E' [N1 [N2 [_ [HN _]]]]]]]]].
  rewrite E in E'. apply ok_inj in E'. subst out. cbn in N1, N2.
  apply fin_inj in N1, N2. rewrite N1, N2.
  unfold to_earth, body_velocity, rot_x, rot_y, rot_z in HN. cbn [cruising a_vt a_alpha a_beta a_phi a_theta a_psi] in HN.
  rewrite sin_0, cos_0 in HN. injection HN. intros. split; lra.
Qed.

Lemma C78_ex : half_chord pitching * a_q pitching = 0.01132.
Proof. unfold half_chord. cbn. lra. Qed.

Lemma C79_ex : exists out,
  subf16_model (state_of (constrained 3 turning 0.5 cruising)) (control_of idle) "morelli" true = Ok out /\
  comp out 5 = Fin 0.3.
Proof.
  destruct (turn_kinematics turning 0.5 cruising idle "morelli" true eq_refl) as [out [E [_ [_ H]]]].
  - cbn. rewrite cos_0. lra.
  - exists out. split; [exact E|exact H].
Qed.
