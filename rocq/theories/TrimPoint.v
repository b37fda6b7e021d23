(** The trim point of the controller as an equilibrium of the airframe (C102). *)
From Coq Require Import String List ZArith Reals Lra Lia Bool.
From Flocq Require Import Core.Core.
From Coquelicot Require Import Coquelicot.
From Verif Require Import PyBase Num XReal XTac Aero Morelli F16 SpecTables SpecAero SpecF16
  SpecF16Ctl AeroLemmas AeroLemmas2 AeroLemmas3 AeroProps AeroProps2 AeroProps3 F16Lemmas F16Lemmas2
  F16Lemmas3 F16Props F16Sym F16Ctl F16Trim SpecMorelli MorelliLemmas.
Import List ListNotations.
Local Open Scope R_scope.
Local Hint Extern 0 (Num xr) => exact (XR Fin) : typeclass_instances.

(** * Numerical bounds, by rational arithmetic *)
Lemma pow_le_frac a b c d (n m : nat) : (0 < b)%Z -> (0 < d)%Z ->
  (a ^ Z.of_nat n * d ^ Z.of_nat m <=? c ^ Z.of_nat m * b ^ Z.of_nat n)%Z = true ->
  (IZR a / IZR b) ^ n <= (IZR c / IZR d) ^ m.
Proof.
  intros Hb Hd H. apply Z.leb_le in H. apply IZR_le in H.
  rewrite !mult_IZR, <- !pow_IZR in H.
  assert (0 < IZR b ^ n) by (apply pow_lt, IZR_lt; exact Hb).
  assert (0 < IZR d ^ m) by (apply pow_lt, IZR_lt; exact Hd).
  unfold Rdiv. rewrite !Rpow_mult_distr, !pow_inv.
  apply Rmult_le_reg_r with (IZR b ^ n * IZR d ^ m); [nra|].
  replace (IZR a ^ n * / IZR b ^ n * (IZR b ^ n * IZR d ^ m)) with (IZR a ^ n * IZR d ^ m) by (field; lra).
  replace (IZR c ^ m * / IZR d ^ m * (IZR b ^ n * IZR d ^ m)) with (IZR c ^ m * IZR b ^ n) by (field; lra).
  exact H.
Qed.

Lemma pow_le_inv x y n : 0 <= y -> (0 < n)%nat -> x ^ n <= y ^ n -> x <= y.
Proof.
  intros Hy Hn H. destruct (Rle_lt_dec x y) as [L|L]; [exact L|exfalso].
  assert (y ^ n < x ^ n); [|lra].
  destruct n as [|n]; [lia|]. clear Hn H.
  induction n as [|n IH]; [cbn; lra|].
  change (y ^ S (S n)) with (y * y ^ S n). change (x ^ S (S n)) with (x * x ^ S n).
  assert (0 <= y ^ S n) by (apply pow_le; exact Hy).
  nra.
Qed.

Lemma rpower_50 x : 0 < x -> Rpower x 4.14 ^ 50 = x ^ 207.
Proof.
  intros Hx. rewrite <- !Rpower_pow; [|exact Hx|apply exp_pos]. rewrite Rpower_mult.
  f_equal. change (INR 50) with (INR 50). rewrite !INR_IZR_INZ. cbn [Z.of_nat Pos.of_succ_nat Pos.succ].
  lra.
Qed.

Lemma trim_density : 0.9712154 <= Rpower (1 - 0.00000703 * 1000) 4.14 <= 0.9712155.
Proof.
  assert (E : 1 - 0.00000703 * 1000 = IZR 99297 / IZR 100000) by lra. rewrite E.
  assert (Hx : 0 < IZR 99297 / IZR 100000) by lra.
  pose proof (rpower_50 _ Hx) as H. set (y := Rpower _ _) in *.
  assert (0 < y) by apply exp_pos.
  split; (apply (pow_le_inv _ _ 50); [lra|lia|]).
  - rewrite H. replace 0.9712154 with (IZR 9712154 / IZR 10000000) by lra.
    apply pow_le_frac; [lia|lia|vm_compute; reflexivity].
  - rewrite H. replace 0.9712155 with (IZR 9712155 / IZR 10000000) by lra.
    apply pow_le_frac; [lia|lia|vm_compute; reflexivity].
Qed.

Lemma trim_mach : 0.451119 <= 502 / sqrt (1.4 * 1716.3 * temperature 1000) <= 0.451120.
Proof.
  unfold temperature. destruct (Rle_dec 35000 1000); [lra|].
  set (z := 1.4 * 1716.3 * (519 * (1 - 0.00000703 * 1000))).
  assert (Hl : 1112.7878 < sqrt z).
  { replace 1112.7878 with (sqrt (1112.7878 * 1112.7878)) by (apply sqrt_square; lra).
    apply sqrt_lt_1; unfold z; lra. }
  assert (Hh : sqrt z < 1112.7879).
  { replace 1112.7879 with (sqrt (1112.7879 * 1112.7879)) by (apply sqrt_square; lra).
    apply sqrt_lt_1; unfold z; lra. }
  split.
  - apply Rmult_le_reg_r with (sqrt z); [lra|]. unfold Rdiv. rewrite Rmult_assoc, Rinv_l by lra. lra.
  - apply Rmult_le_reg_r with (sqrt z); [lra|]. unfold Rdiv. rewrite Rmult_assoc, Rinv_l by lra. lra.
Qed.

Lemma trim_cos : 0.999243 <= cos 0.0389 <= 0.999244.
Proof.
  assert (HP := PI_RGT_0). assert (H3 : 3 < PI) by (pose proof PI2_3_2; unfold PI2 in *; lra).
  destruct (cos_bound 0.0389 0) as [A B]; [lra|lra|].
  unfold cos_approx, cos_term in A, B. cbn in A, B. lra.
Qed.
Lemma trim_sin : 0.03889 <= sin 0.0389 <= 0.038891.
Proof.
  assert (HP := PI_RGT_0). assert (H3 : 3 < PI) by (pose proof PI2_3_2; unfold PI2 in *; lra).
  destruct (sin_bound 0.0389 0) as [A B]; [lra|lra|].
  unfold sin_approx, sin_term in A, B. cbn in A, B. lra.
Qed.

Lemma pi_bounds : 3.1415 <= PI <= 3.1416.
Proof.
  destruct (PI_2_3_7_ineq 2) as [A B]. unfold tg_alt, PI_2_3_7_tg, Ratan_seq in A, B.
  cbn [sum_f_R0 Nat.mul Nat.add pow] in A, B. rewrite !INR_IZR_INZ in A, B.
  cbn [Z.of_nat Pos.of_succ_nat Pos.succ] in A, B.
  replace (INR 11) with 11 in A by (rewrite INR_IZR_INZ; reflexivity). lra.
Qed.

(** * Rates at the trim point for given coefficients *)
Lemma thirteen (l : list xr) : length l = 13%nat -> l = map (fun i => nth i l NaN) (seq 0 13).
Proof.
  intros H. do 13 (destruct l as [|? l]; [discriminate H|]). destruct l; [reflexivity|discriminate H].
Qed.

Lemma trim_rates model adj : known_model model = true ->
  exists c1 c2 c3 c4 c5 c6 d Q t v' a' q' w nz az,
    coefficients model trim trim_surfaces c1 c2 c3 c4 c5 c6 /\ environment trim d Q t /\
    subf16_model (state_of trim) (control_of trim_surfaces) model adj
      = Ok (map Fin [v'; a'; 0; 0; 0; 0; 0; q'; 0; 502; 0; 0; w], Fin nz, Fin 0, Fin az, Fin 0) /\
    v' = 0.00157 * (300 * Q * c1 + t) * cos 0.0389 + 0.00157 * (300 * Q * c3) * sin 0.0389 /\
    502 * a' = 0.00157 * (300 * Q * c3) * cos 0.0389 - 0.00157 * (300 * Q * c1 + t) * sin 0.0389
               + 32.17 /\
    q' = 0.00001792 * (300 * 11.32 * Q * c5) /\
    Fin w = pdot (Fin 9.0567) (tgear (Fin 0.1395)) /\
    az = 0.00157 * (300 * Q * c3) - 15 * q' /\ nz = - az / 32.17 - 1.
Proof.
  intros Hm. pose proof trim_cos as Hcos.
  assert (Hct : cos (a_theta trim) <> 0) by (cbn; lra).
  assert (Hcb : cos (a_beta trim) <> 0) by (cbn; rewrite cos_0; lra).
  assert (Hv : a_vt trim <> 0) by (cbn; lra).
  assert (Ha : a_alt trim < 142247) by (cbn; lra).
  destruct (f16_equations trim trim_surfaces model adj Hm Hct Hv Hcb Ha)
    as [c1 [c2 [c3 [c4 [c5 [c6 [d [Q [t [xd [nz [ny [zo [yo [v' [a' [b' [fx [fy [fz [p' [q' [r'
       [Hc [He [E [L [G0 [G1 [G2 [G6 [G7 [G8 [G12 [HN [Hfx [Hfy [Hfz [HR [Hzo [Hyo [Hnz Hny]]]]]]]]]]]]]]]]]]]]]]]]]]]]]]]]]]]]]]]]]].
  destruct (f16_symmetric trim trim_surfaces model adj Hm Hct Hv Ha eq_refl eq_refl eq_refl eq_refl
    eq_refl eq_refl eq_refl) as [xd2 [nz2 [az2 [E2 Hs]]]].
  destruct (f16_kin trim trim_surfaces model adj Hm Hct) as [out [f' [t' [s' [E' [_ [K4 [_ HK]]]]]]]].
  destruct (f16_nav trim trim_surfaces model adj Hm Hct) as [out2 [n [e [h [E'' [N9 [N10 [N11 [HNv _]]]]]]]]].
  rewrite E in E2, E', E''. apply ok_inj in E2, E', E''. subst out out2.
  injection E2. intros Y1 Y2 Y3 Y4 Y5.
  subst xd2 az2. rewrite tgear_fin, pdot_fin in G12.
  cbn [a_pow a_theta a_alpha a_phi a_beta a_psi a_p a_q a_r a_vt s_thr s_el trim trim_surfaces] in *.
  rewrite tgear_fin, pdot_fin.
  assert (EK : t' = 0).
  { unfold rates_of in HK. rewrite sin_0, cos_0 in HK. injection HK. intros. lra. }
  assert (EN : n = 502 /\ e = 0 /\ h = 0).
  { pose proof (sin2_cos2 0.0389) as H1. unfold Rsqr in H1.
    unfold to_earth, body_velocity, rot_x, rot_y, rot_z in HNv.
    cbn [a_pow a_theta a_alpha a_phi a_beta a_psi a_p a_q a_r a_vt trim] in HNv.
    rewrite sin_0, cos_0 in HNv. injection HNv. intros. split; [nra|]. lra. }
  destruct EN as [-> [-> ->]].
  unfold comp, nth0 in K4, N9, N10, N11.
  rewrite (nth_indep xd n0 NaN) in K4 by lia.
  rewrite (nth_indep xd n0 NaN) in N9 by lia.
  rewrite (nth_indep xd n0 NaN) in N10 by lia.
  rewrite (nth_indep xd n0 NaN) in N11 by lia.
  injection Hs. intros S8 S6 S5 S3 S2.
  exists c1, c2, c3, c4, c5, c6, d, Q, t, v', a', q'.
  eexists. exists nz, zo. split; [exact Hc|]. split; [exact He|].
  split.
  { rewrite E, (thirteen xd L). cbn [map seq].
    rewrite G0, G1, S2, S3, K4, S5, S6, G7, S8, N9, N10, N11, G12, EK, Y1, Y3. reflexivity. }
  assert (Efx : fx = 0.00157 * (300 * Q * c1 + t)) by (rewrite Hfx; ring).
  assert (Efz : fz = 0.00157 * (300 * Q * c3)) by (rewrite Hfz; ring).
  unfold velocity_rate, newton, body_velocity in HN.
  cbn [a_pow a_theta a_alpha a_phi a_beta a_psi a_p a_q a_r a_vt trim] in HN.
  rewrite sin_0, cos_0 in HN. rewrite <- Efx, <- Efz.
  pose proof (sin2_cos2 0.0389) as H1. unfold Rsqr in H1.
  set (c := cos 0.0389) in *. set (s := sin 0.0389) in *.
  injection HN. intros M3 _ M1.
  assert (A1 : v' * c - 502 * s * a' = fx - 32.17 * s) by lra.
  assert (A3 : v' * s + 502 * (c * a') = fz + 32.17 * c) by lra.
  split.
  { transitivity (c * (v' * c - 502 * s * a') + s * (v' * s + 502 * (c * a'))).
    - transitivity (v' * (s * s + c * c)); [rewrite H1; ring|ring].
    - rewrite A1, A3. ring. }
  split.
  { transitivity (c * (v' * s + 502 * (c * a')) - s * (v' * c - 502 * s * a')).
    - transitivity (502 * a' * (s * s + c * c)); [rewrite H1; ring|ring].
    - rewrite A1, A3. transitivity (fz * c - fx * s + 32.17 * (s * s + c * c)); [ring|rewrite H1; ring]. }
  split; [unfold rotation_rate in HR; injection HR; intros; lra|].
  split; [reflexivity|].
  split; [exact Hzo|exact Hnz].
Qed.

(** Dynamic pressure and thrust. *)
Lemma trim_environment d Q t : environment trim d Q t ->
  290.8855 <= Q <= 290.8857 /\ 2066.79 <= t <= 2066.81.
Proof.
  intros [_ [mach [HQ Ht]]]. cbn [a_pow a_alt a_vt trim] in *.
  rewrite adc_fin in HQ by lra. injection HQ. intros EQ Em.
  pose proof trim_mach as Hm. rewrite Em in Hm.
  assert (Ha : alt_used 1000 = 1000) by (unfold alt_used; destruct (Rlt_dec 1000 0); lra).
  rewrite (thrust_fin _ _ _ 0%Z 2%Z) in Ht
    by (rewrite ?Ha; unfold in_cell; (split; [lia|]); split; right; cbn [Z.add Pos.add Pos.succ]; lra).
  apply ok_inj, fin_inj in Ht. rewrite Ha in Ht.
  unfold density in EQ. pose proof trim_density as Hd.
  set (y := Rpower _ _) in *. split; [lra|].
  rewrite <- Ht. unfold thrust_blend. destruct (Rlt_dec 9.0567 50); [|lra].
  unfold thrust_on, on_cell2, on_cell. entries. lra.
Qed.

Lemma prod_bounds a b c d x y : 0 <= a -> 0 <= c -> a <= x <= b -> c <= y <= d -> a * c <= x * y <= b * d.
Proof. intros. split; apply Rmult_le_compat; lra. Qed.

Lemma trim_power w : Fin w = pdot (Fin 9.0567) (tgear (Fin 0.1395)) -> Rabs w <= 0.0025.
Proof.
  rewrite tgear_fin, pdot_fin. intros H. apply fin_inj in H. subst w.
  destruct (Rle_dec 0.1395 0.77); [|lra]. unfold pdot_r.
  rewrite !Rle_bool_false by lra. unfold rtau_r. rewrite Rle_bool_true by lra.
  apply Rabs_le. lra.
Qed.

(** * The tabulated model *)
Lemma trim_stevens adj : exists v' a' q' w nz az,
    subf16_model (state_of trim) (control_of trim_surfaces) "stevens" adj
      = Ok (map Fin [v'; a'; 0; 0; 0; 0; 0; q'; 0; 502; 0; 0; w], Fin nz, Fin 0, Fin az, Fin 0) /\
    Rabs v' <= 0.001 /\ Rabs a' <= 0.00003 /\ Rabs q' <= 0.00003 /\ Rabs w <= 0.0025 /\
    Rabs nz <= 0.0004.
Proof.
  destruct (trim_rates "stevens" adj eq_refl)
    as [c1 [c2 [c3 [c4 [c5 [c6 [d [Q [t [v' [a' [q' [w [nz [az [Hc [He [E [Ev [Ea [Eq [Ew [Ez En]]]]]]]]]]]]]]]]]]]]]]].
  destruct Hc as [H1 [_ [H3 [H5 _]]]]. apply trim_environment in He. destruct He as [HQ Ht].
  cbn [a_alpha a_beta s_el trim trim_surfaces] in *.
  unfold degrees in *.
  rewrite (cx_interp _ _ 0%Z (-1)%Z) in H1
    by (unfold in_cell; (split; [lia|]); split; right; cbn [Z.add Z.pos_sub]; lra).
  rewrite (cm_interp _ _ 0%Z (-1)%Z) in H5
    by (unfold in_cell; (split; [lia|]); split; right; cbn [Z.add Z.pos_sub]; lra).
  rewrite (cz_fin _ _ _ 0%Z) in H3
    by (unfold in_cell; (split; [lia|]); split; right; cbn [Z.add Z.pos_sub]; lra).
  apply ok_inj, fin_inj in H1, H3, H5.
  assert (B1 : -0.0145533 <= c1 <= -0.0145531).
  { rewrite <- H1. unfold on_cell2, on_cell. entries. lra. }
  assert (B3 : -0.2347179 <= c3 <= -0.2347177).
  { rewrite <- H3. unfold on_cell. entries. unfold coeff1.
    change (nth (Z.to_nat (0 - -2)) tab_cz 0%Z) with (-100)%Z.
    change (nth (Z.to_nat (1 - -2)) tab_cz 0%Z) with (-415)%Z. lra. }
  assert (B5 : 0.00000133 <= c5 <= 0.00000134).
  { rewrite <- H5. unfold on_cell2, on_cell. entries. lra. }
  clear H1 H3 H5.
  pose proof trim_cos as Hcos. pose proof trim_sin as Hsin.
  set (cs := cos 0.0389) in *. set (sn := sin 0.0389) in *.
  assert (P1 : 290.8855 * 0.0145531 <= Q * (- c1) <= 290.8857 * 0.0145533) by (apply prod_bounds; lra).
  assert (P3 : 290.8855 * 0.2347177 <= Q * (- c3) <= 290.8857 * 0.2347179) by (apply prod_bounds; lra).
  assert (P5 : 290.8855 * 0.00000133 <= Q * c5 <= 290.8857 * 0.00000134) by (apply prod_bounds; lra).
  set (fx := 0.00157 * (300 * Q * c1 + t)) in *. set (fz := 0.00157 * (300 * Q * c3)) in *.
  assert (Bx : 1.25090 <= fx <= 1.25105) by (unfold fx; lra).
  assert (Bz : 32.1579 <= - fz <= 32.1581) by (unfold fz; lra).
  assert (R1 : 1.25090 * 0.999243 <= fx * cs <= 1.25105 * 0.999244) by (apply prod_bounds; lra).
  assert (R2 : 1.25090 * 0.03889 <= fx * sn <= 1.25105 * 0.038891) by (apply prod_bounds; lra).
  assert (R3 : 32.1579 * 0.999243 <= - fz * cs <= 32.1581 * 0.999244) by (apply prod_bounds; lra).
  assert (R4 : 32.1579 * 0.03889 <= - fz * sn <= 32.1581 * 0.038891) by (apply prod_bounds; lra).
  exists v', a', q', w, nz, az. split; [exact E|].
  split; [apply Rabs_le; lra|]. split; [apply Rabs_le; lra|]. split; [apply Rabs_le; lra|].
  split; [apply trim_power; exact Ew|]. apply Rabs_le. lra.
Qed.

(** * The polynomial model, the default of the closed loop *)
Lemma trim_morelli adj : exists v' a' q' w nz az,
    subf16_model (state_of trim) (control_of trim_surfaces) "morelli" adj
      = Ok (map Fin [v'; a'; 0; 0; 0; 0; 0; q'; 0; 502; 0; 0; w], Fin nz, Fin 0, Fin az, Fin 0) /\
    0.3 <= v' /\ a' <= -0.0145 /\ q' <= -0.18 /\ 0.14 <= nz.
Proof.
  destruct (trim_rates "morelli" adj eq_refl)
    as [c1 [c2 [c3 [c4 [c5 [c6 [d [Q [t [v' [a' [q' [w [nz [az [Hc [He [E [Ev [Ea [Eq [Ew [Ez En]]]]]]]]]]]]]]]]]]]]]]].
  apply trim_environment in He. destruct He as [HQ Ht].
  unfold coefficients in Hc. cbn [String.eqb Ascii.eqb Bool.eqb] in Hc. unfold morelli_coefficients in Hc.
  cbn [a_alpha a_beta a_p a_q a_r a_vt s_el s_ail s_rdr trim trim_surfaces] in *.
  rewrite nZ_fin in Hc.
  change (nlit 1132 100 : xr) with (Fin (1132 / 100)) in Hc.
  change (nlit 35 100 : xr) with (Fin (35 / 100)) in Hc.
  pose proof pi_bounds as HP.
  rewrite morelli_poly in Hc by lra. rewrite !within_inside in Hc by lra.
  replace (0 * 57.29578 * PI / 180) with 0 in Hc by lra.
  replace (0 * PI / 180) with 0 in Hc by lra.
  set (al := 0.0389 * 57.29578 * PI / 180) in *. set (de := -0.7496 * PI / 180) in *.
  assert (Ba : 0.03889 <= al <= 0.03891) by (unfold al; lra).
  assert (Bd : -0.013084 <= de <= -0.013082) by (unfold de; lra).
  clearbody al de.
  unfold morelli, fin6 in Hc. injection Hc. intros _ H5 _ H3 _ H1. clear Hc.
  revert H1 H3 H5. polys. intros H1 H3 H5.
  set (e := - de) in *. assert (Be : 0.013082 <= e <= 0.013084) by (unfold e; lra).
  replace de with (- e) in H1, H3, H5 by (unfold e; ring). clearbody e. clear Bd.
  assert (A2 : 0.03889 * 0.03889 <= al * al <= 0.03891 * 0.03891) by (apply prod_bounds; lra).
  assert (A3 : 0.03889 * (0.03889 * 0.03889) <= al * (al * al) <= 0.03891 * (0.03891 * 0.03891))
    by (apply prod_bounds; lra).
  assert (A4 : 0.03889 * (0.03889 * (0.03889 * 0.03889)) <= al * (al * (al * al))
               <= 0.03891 * (0.03891 * (0.03891 * 0.03891))) by (apply prod_bounds; lra).
  assert (E2 : 0.013082 * 0.013082 <= e * e <= 0.013084 * 0.013084) by (apply prod_bounds; lra).
  assert (E3 : 0.013082 * (0.013082 * 0.013082) <= e * (e * e) <= 0.013084 * (0.013084 * 0.013084))
    by (apply prod_bounds; lra).
  assert (M1 : 0.03889 * 0.013082 <= al * e <= 0.03891 * 0.013084) by (apply prod_bounds; lra).
  assert (M2 : 0.03889 * (0.03889 * 0.013082) <= al * (al * e) <= 0.03891 * (0.03891 * 0.013084))
    by (apply prod_bounds; lra).
  assert (M3 : 0.03889 * (0.013082 * 0.013082) <= al * (e * e) <= 0.03891 * (0.013084 * 0.013084))
    by (apply prod_bounds; lra).
  assert (B1 : 0.0100 <= - c1 <= 0.01004) by (rewrite <- H1; lra).
  assert (B3 : 0.2892 <= - c3 <= 0.2894) by (rewrite <- H3; lra).
  assert (B5 : 0.0105 <= - c5 <= 0.0106) by (rewrite <- H5; lra).
  clear H1 H3 H5 A2 A3 A4 E2 E3 M1 M2 M3.
  pose proof trim_cos as Hcos. pose proof trim_sin as Hsin.
  set (cs := cos 0.0389) in *. set (sn := sin 0.0389) in *.
  assert (P1 : 290.8855 * 0.0100 <= Q * (- c1) <= 290.8857 * 0.01004) by (apply prod_bounds; lra).
  assert (P3 : 290.8855 * 0.2892 <= Q * (- c3) <= 290.8857 * 0.2894) by (apply prod_bounds; lra).
  assert (P5 : 290.8855 * 0.0105 <= Q * (- c5) <= 290.8857 * 0.0106) by (apply prod_bounds; lra).
  set (fx := 0.00157 * (300 * Q * c1 + t)) in *. set (fz := 0.00157 * (300 * Q * c3)) in *.
  assert (Bx : 1.868 <= fx <= 1.876) by (unfold fx; lra).
  assert (Bz : 39.62 <= - fz <= 39.66) by (unfold fz; lra).
  assert (R1 : 1.868 * 0.999243 <= fx * cs <= 1.876 * 0.999244) by (apply prod_bounds; lra).
  assert (R2 : 1.868 * 0.03889 <= fx * sn <= 1.876 * 0.038891) by (apply prod_bounds; lra).
  assert (R3 : 39.62 * 0.999243 <= - fz * cs <= 39.66 * 0.999244) by (apply prod_bounds; lra).
  assert (R4 : 39.62 * 0.03889 <= - fz * sn <= 39.66 * 0.038891) by (apply prod_bounds; lra).
  exists v', a', q', w, nz, az. split; [exact E|]. repeat split; lra.
Qed.

(** * The closed loop at trim with zero reference *)
Lemma trim_ctl : ctl trim 0 0 0 0 = trim_surfaces.
Proof.
  unfold ctl, trim_surfaces, throttle, elevator, aileron, rudder, clamp.
  cbn [a_alpha a_beta a_p a_q a_r trim].
  f_equal; unfold Rmin; match goal with |- context [Rle_dec ?u ?v] => destruct (Rle_dec u v) end;
    unfold Rmax; repeat match goal with |- context [Rle_dec ?u ?v] => destruct (Rle_dec u v) end; lra.
Qed.

Lemma trim_closed model : known_model model = true -> exists xd nz az urad,
  subf16_model (state_of trim) (control_of trim_surfaces) model true
    = Ok (xd, Fin nz, Fin 0, Fin az, Fin 0) /\
  controlled_f16 (closed_state trim 0 0 0 []) (map Fin [0; 0; 0; 0]) model false
    = Ok (xd ++ map Fin [nz; 0; 0], urad, Fin nz, Fin 0, Fin 0).
Proof.
  intros Hm. pose proof trim_cos as Hcos.
  destruct (controlled_fin trim 0 0 0 [] 0 0 0 0 model Hm) as [xd [nz [ny [az [ay [E C]]]]]];
    try (cbn; rewrite ?cos_0; lra).
  destruct (f16_symmetric trim trim_surfaces model true Hm) as [xd2 [nz2 [az2 [E2 _]]]];
    try reflexivity; try (cbn; lra).
  rewrite trim_ctl in E. rewrite E in E2. apply ok_inj in E2. injection E2. intros Y1 Y2 Y3 Y4 Y5.
  do 4 eexists. split; [rewrite E, Y1, Y3; reflexivity|].
  change (map Fin [0; 0; 0; 0]) with (ref_of 0 0 0 0). rewrite C.
  cbn [repeat length]. rewrite app_nil_r.
  cbn [a_p a_r a_alpha trim]. rewrite Y3. unfold stability_roll_rate.
  replace (0 * cos (0.0389 - 0.0389) + 0 * sin (0.0389 - 0.0389)) with 0 by ring.
  rewrite Rminus_0_r. replace (0 + 0) with 0 by ring. rewrite !Rminus_0_r. reflexivity.
Qed.

Lemma trim_closed_stevens : exists v' a' q' w nz urad,
  controlled_f16 (closed_state trim 0 0 0 []) (map Fin [0; 0; 0; 0]) "stevens" false
    = Ok (map Fin [v'; a'; 0; 0; 0; 0; 0; q'; 0; 502; 0; 0; w; nz; 0; 0], urad, Fin nz, Fin 0, Fin 0) /\
  Rabs v' <= 0.001 /\ Rabs a' <= 0.00003 /\ Rabs q' <= 0.00003 /\ Rabs w <= 0.0025 /\
  Rabs nz <= 0.0004.
Proof.
  destruct (trim_closed "stevens" eq_refl) as [xd [nz [az [urad [E C]]]]].
  destruct (trim_stevens true) as [v' [a' [q' [w [nz2 [az2 [E2 H]]]]]]].
  rewrite E in E2. apply ok_inj in E2. injection E2. intros _ Y1 Y2. subst xd nz2.
  exists v', a', q', w, nz, urad. split; [exact C|exact H].
Qed.

Lemma trim_closed_morelli : exists v' a' q' w nz urad,
  controlled_f16 (closed_state trim 0 0 0 []) (map Fin [0; 0; 0; 0]) "morelli" false
    = Ok (map Fin [v'; a'; 0; 0; 0; 0; 0; q'; 0; 502; 0; 0; w; nz; 0; 0], urad, Fin nz, Fin 0, Fin 0) /\
  0.3 <= v' /\ a' <= -0.0145 /\ q' <= -0.18 /\ 0.14 <= nz.
Proof.
  destruct (trim_closed "morelli" eq_refl) as [xd [nz [az [urad [E C]]]]].
  destruct (trim_morelli true) as [v' [a' [q' [w [nz2 [az2 [E2 H]]]]]]].
  rewrite E in E2. apply ok_inj in E2. injection E2. intros _ Y1 Y2. subst xd nz2.
  exists v', a', q', w, nz, urad. split; [exact C|exact H].
Qed.
