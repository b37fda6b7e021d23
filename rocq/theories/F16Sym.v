(** Symmetric flight (C60) and the damping of the polynomial model (C78). *)
From Coq Require Import String List ZArith Reals Lra Lia Bool.
From Flocq Require Import Core.Core.
From Coquelicot Require Import Coquelicot.
From Verif Require Import PyBase Num XReal XTac Aero Morelli F16 SpecTables SpecAero SpecF16
  AeroLemmas AeroLemmas2 AeroLemmas3 AeroProps AeroProps2 AeroProps3 F16Lemmas F16Lemmas2 F16Lemmas3
  F16Props SpecMorelli MorelliLemmas.
Import List ListNotations.
Local Open Scope R_scope.
Local Hint Extern 0 (Num xr) => exact (XR Fin) : typeclass_instances.

Lemma fin_inj a b : Fin a = Fin b -> a = b.
Proof. intros H. injection H. auto. Qed.

Lemma symmetric_stevens x u c1 c2 c3 c4 c5 c6 : a_beta x = 0 -> s_ail u = 0 -> s_rdr u = 0 ->
  stevens_coefficients x u c1 c2 c3 c4 c5 c6 -> c2 = 0 /\ c4 = 0 /\ c6 = 0.
Proof.
  intros Hb Hi Hr [_ [H2 [_ [_ [[l [la [lr [Hl [_ [_ H4]]]]]] [n [na [nr [Hn [_ [_ H6]]]]]]]]]]].
  rewrite Hb, ?Hi, ?Hr in *.
  assert (Ed : degrees 0 = Fin 0) by (unfold degrees; f_equal; ring). rewrite Ed in *.
  unfold degrees in Hl, Hn.
  rewrite (odd_zero cl cl_odd) in Hl. rewrite (odd_zero cn cn_odd) in Hn.
  apply ok_inj, fin_inj in Hl, Hn.
  unfold cy in H2. rewrite !nZ_fin in H2. rewrite !div_fin in H2 by lra. cbn in H2.
  apply fin_inj in H2.
  split; [lra|]. split; subst; lra.
Qed.

Lemma symmetric_morelli x u c1 c2 c3 c4 c5 c6 : a_beta x = 0 -> a_p x = 0 -> a_r x = 0 ->
  s_ail u = 0 -> s_rdr u = 0 -> a_vt x <> 0 ->
  morelli_coefficients x u c1 c2 c3 c4 c5 c6 -> c2 = 0 /\ c4 = 0 /\ c6 = 0.
Proof.
  intros Hb Hp Hr Hi Hd Hv H. unfold morelli_coefficients in H.
  rewrite Hb, Hp, Hr, Hi, Hd in H.
  replace (0 * 57.29578 * PI / 180) with 0 in H by lra.
  replace (0 * PI / 180) with 0 in H by lra.
  rewrite nZ_fin in H.
  change (nlit 1132 100 : xr) with (Fin (1132 / 100)) in H.
  change (nlit 35 100 : xr) with (Fin (35 / 100)) in H.
  destruct (morelli_symmetric (a_alpha x * 57.29578 * PI / 180) (s_el u * PI / 180) (a_q x)
    (1132 / 100) 30 (a_vt x) (35 / 100) (35 / 100) Hv) as [d1 [d3 [d5 E]]]; [lra|].
  rewrite E in H. injection H. intros. subst. repeat split; reflexivity.
Qed.

Lemma f16_symmetric x u model adj : known_model model = true -> cos (a_theta x) <> 0 ->
  a_vt x <> 0 -> a_alt x < 142247 ->
  a_beta x = 0 -> a_phi x = 0 -> a_p x = 0 -> a_q x = 0 -> a_r x = 0 ->
  s_ail u = 0 -> s_rdr u = 0 ->
  exists xd nz az,
    subf16_model (state_of x) (control_of u) model adj = Ok (xd, Fin nz, Fin 0, Fin az, Fin 0) /\
    map (fun i => nth i xd NaN) [2; 3; 5; 6; 8]%nat = repeat (Fin 0) 5.
Proof.
  intros Hm Hct Hv Ha Hb Hf Hp Hq Hr Hi Hd.
  assert (Hcb : cos (a_beta x) <> 0) by (rewrite Hb, cos_0; lra).
  destruct (f16_equations x u model adj Hm Hct Hv Hcb Ha)
    as [c1 [c2 [c3 [c4 [c5 [c6 [d [Q [t [xd [nz [ny [zo [yo [v' [a' [b' [fx [fy [fz [p' [q' [r'
       [Hc [_ [E [L [G0 [G1 [G2 [G6 [G7 [G8 [_ [HN [_ [Hfy [_ [HR [_ [Hyo [_ Hny]]]]]]]]]]]]]]]]]]]]]]]]]]]]]]]]]]]]]]]]]].
  destruct (f16_kin x u model adj Hm Hct) as [out [f' [t' [s' [E' [K3 [_ [K5 HK]]]]]]]].
  assert (Z : c2 = 0 /\ c4 = 0 /\ c6 = 0).
  { unfold coefficients in Hc. destruct (String.eqb model "stevens").
    - apply (symmetric_stevens x u c1 c2 c3 c4 c5 c6); assumption.
    - apply (symmetric_morelli x u c1 c2 c3 c4 c5 c6); assumption. }
  destruct Z as [-> [-> ->]].
  rewrite E in E'. apply ok_inj in E'. subst out.
  unfold comp, nth0 in K3, K5.
  rewrite (nth_indep xd n0 NaN) in K3 by lia. rewrite (nth_indep xd n0 NaN) in K5 by lia.
  rewrite Hp, Hq, Hr in *.
  assert (Ey : fy = 0) by (rewrite Hfy; ring).
  assert (Er : r' = 0) by (unfold rotation_rate in HR; injection HR; intros; lra).
  assert (Ep : p' = 0) by (unfold rotation_rate in HR; injection HR; intros; lra).
  assert (Eb : b' = 0).
  { unfold velocity_rate, newton, body_velocity in HN.
    rewrite Hb, Hf, Hp, Hq, Hr, sin_0, cos_0 in HN. injection HN. intros _ HH _.
    rewrite Ey in HH.
    assert (a_vt x * b' = 0) by lra. apply Rmult_integral in H. tauto. }
  rewrite Hf in HK. unfold rates_of in HK. rewrite sin_0, cos_0 in HK. injection HK. intros K1 K2 K0.
  assert (Es : s' = 0).
  { assert (s' * cos (a_theta x) = 0) by lra. apply Rmult_integral in H. tauto. }
  assert (Ef : f' = 0) by (rewrite Es in K0; lra).
  assert (Eyo : yo = 0) by (rewrite Hyo, Ey, Er; destruct adj; lra).
  assert (Eny : ny = 0) by (rewrite Hny, Eyo; lra).
  exists xd, nz, zo. split; [rewrite E, Eny, Eyo; reflexivity|].
  cbn [map repeat]. rewrite G2, K3, K5, G6, G8. subst. reflexivity.
Qed.

(** The polynomial coefficients already contain their rate terms; the table damping is added on
    top of them. At sea level, level, 500 ft/s, pitching at 1 rad/s. *)
Definition pitching : airframe :=
  {| a_vt := 500; a_alpha := 0; a_beta := 0; a_phi := 0; a_theta := 0; a_psi := 0;
     a_p := 0; a_q := 1; a_r := 0; a_pn := 0; a_pe := 0; a_alt := 0; a_pow := 9 |}.
Definition idle : surfaces := {| s_thr := 0; s_el := 0; s_ail := 0; s_rdr := 0 |}.

Lemma morelli_damped_twice adj :
  exists c1 c2 c3 c4 c5 c6 d Q t xd nz ny az ay q',
    morelli_coefficients pitching idle c1 c2 c3 c4 c5 c6 /\ environment pitching d Q t /\
    subf16_model (state_of pitching) (control_of idle) "morelli" adj
      = Ok (xd, nz, ny, Fin az, ay) /\ nth 7 xd NaN = Fin q' /\
    az + 15 * q' <> 0.00157 * (300 * Q * c3).
Proof.
  destruct (f16_equations pitching idle "morelli" adj)
    as [c1 [c2 [c3 [c4 [c5 [c6 [d [Q [t [xd [nz [ny [zo [yo [v' [a' [b' [fx [fy [fz [p' [q' [r'
       [Hc [He [E [L [G0 [G1 [G2 [G6 [G7 [G8 [_ [HN [_ [Hfy [Hfz [HR [Hzo [Hyo [_ Hny]]]]]]]]]]]]]]]]]]]]]]]]]]]]]]]]]]]]]]]]]];
    try (cbn; try rewrite cos_0; reflexivity || lra).
  exists c1, c2, c3, c4, c5, c6, d, Q, t, xd, (Fin nz), (Fin ny), zo, (Fin yo), q'.
  split; [exact Hc|]. split; [exact He|]. split; [exact E|]. split; [exact G7|].
  destruct He as [Hd [mach [HQ _]]].
  cbn [a_vt a_alt pitching] in HQ. rewrite adc_fin in HQ by lra. injection HQ. intros EQ _.
  assert (HQ0 : Q <> 0).
  { rewrite <- EQ. assert (0 < density 0); [|lra].
    unfold density. apply Rmult_lt_0_compat; [lra|]. apply exp_pos. }
  unfold degrees in Hd. cbn [a_alpha pitching] in Hd.
  rewrite (dampp_fin (0 * 57.29578) 0) in Hd.
  2:{ unfold in_cell. split; [lia|]. split; right; cbn [Z.add]; lra. }
  apply ok_inj in Hd. unfold damp_ix in Hd. cbn [map seq] in Hd. injection Hd.
  intros _ _ _ _ _ H3 _ _ _.
  rewrite Hzo, Hfz. unfold half_chord. cbn [a_vt a_q pitching]. rewrite <- H3.
  unfold on_cell. entries. intros HH. apply HQ0. lra.
Qed.
