(** New aircraft, whose first step is computed in float32, against the true path (C121). *)
From Coq Require Import String ZArith Reals Bool List Lra Lia.
From Coquelicot Require Import Coquelicot.
From Flocq Require Import Core.Core IEEE754.BinarySingleNaN.
From Verif Require Import PyBase Num Arr BaseModel Dubins SpecBase SpecCwh XReal XTac ConvLemmas Float64 SpecRound SpecFly FlyRound FlyRun FlyEx SpecFly3 Fly3Round Fly3Run Fly3Ex
  Fresh SpecFresh FreshLemmas FreshEx Fresh3 Fresh3Run SpecPath PathRun SpecPath3 Path3Run.
Import List ListNotations.
Local Open Scope R_scope.

Lemma new_path (lm : libm) (m : libm32) (w : world f64) v_min v_max hr_min hr_max acc_min acc_max samples B H V Q C x0 y0 hd0 v0 l :
  accurate lm -> accurate32 m -> (samples <= 0)%Z ->
  Forall (fun a : f64 => is_finite (f64_f32 a) = true) [v_min; v_max; x0; y0; hd0; v0] ->
  Forall (SpecRound.within 100) [hr_min; hr_max; acc_min; acc_max] ->
  Forall (fun a : f64 => Rabs (B2R (f64_f32 a)) <= V) [v_min; v_max; v0] ->
  Forall (fun a : f64 => Rabs (B2R a) <= Q) [hr_min; hr_max] -> Forall (fun a : f64 => Rabs (B2R a) <= C) [acc_min; acc_max] ->
  B2R (f64_f32 v_min) <= B2R (f64_f32 v0) <= B2R (f64_f32 v_max) ->
  0 <= H -> Forall (fly_ok H) l ->
  Forall (fun a : f64 => Rabs (B2R (f64_f32 a)) + INR (length l) * (H * V) + 1 <= B) [x0; y0; hd0] ->
  B <= bpow radix2 99 -> V <= bpow radix2 99 -> first_error H V + fly_error B H V Q C (length l) <= 1 ->
  let L := {| v_lo := B2R (f64_f32 v_min); v_hi := B2R (f64_f32 v_max); r_lo := B2R hr_min; r_hi := B2R hr_max;
              a_lo := B2R acc_min; a_hi := B2R acc_max |} in
  let p := {| px := B2R (f64_f32 x0); py := B2R (f64_f32 y0); phead := B2R (f64_f32 hd0); pv := B2R (f64_f32 v0) |} in
  exists e s, fly_new2d lm m w samples v_min v_max hr_min hr_max acc_min acc_max x0 y0 hd0 v0 (map fly_act l) = Ok e /\
    e_state e = A1 s /\ flies (first_error H V + fly_error B H V Q C (length l) + INR (length l) * ((C + V * Q) * (H * H / 2))) s (path L p (map fly_num l)).
Proof.
  intros Ac Am Sa Fs Wl HV HQ HC Hv H0 Fl Fb B9 V9 Fe L p.
  destruct (fly_new lm m w v_min v_max hr_min hr_max acc_min acc_max samples B H V Q C x0 y0 hd0 v0 l Ac Am Sa Fs Wl HV HQ HC H0 Fl Fb B9 V9 Fe)
    as (e & s & R1 & R2 & R3).
  exists e, s. split; [exact R1|]. split; [exact R2|].
  inversion HV as [|? ? V1 HV1]; subst. inversion HV1 as [|? ? V2 _]; subst. inversion HQ as [|? ? Q1 HQ1]; subst. inversion HQ1 as [|? ? Q2 _]; subst.
  inversion HC as [|? ? C1 HC1]; subst. inversion HC1 as [|? ? C2 _]; subst.
  destruct (path_close L V Q C V1 V2 Q1 Q2 C1 C2 H H0 (map fly_num l) p p 0) as (A1 & A2 & A3 & A4); auto.
  - clear -Fl. induction Fl as [|[[h r] c] l (_ & Hh & _) Fl IH]; cbn [map]; constructor; [exact Hh|exact IH].
  - rewrite Rminus_eq_0, Rabs_R0. lra.
  - rewrite Rminus_eq_0, Rabs_R0. lra.
  - rewrite map_length, Rplus_0_l in A3, A4. apply (flies_path _ _ _ (fly L p (map fly_num l))); auto.
    eapply Rle_trans; [apply Rabs_pos|exact A3].
Qed.

Lemma new_path3 (lm : libm) (mm : libm32) (w : world f64) v_min v_max g_min g_max r_min r_max gr_min gr_max rr_min rr_max
    acc_min acc_max samples B H V C A m c a q x0 y0 z0 hd0 ga0 ro0 v0 l :
  accurate lm -> accurate_tan lm -> accurate32 mm -> accurate_tan32 mm -> (samples <= 0)%Z ->
  Forall (fun a : f64 => is_finite (f64_f32 a) = true) [v_min; v_max; g_min; g_max; r_min; r_max; x0; y0; z0; hd0; ga0; ro0; v0] ->
  Forall (SpecRound.within 100) [gr_min; gr_max; rr_min; rr_max; acc_min; acc_max] ->
  Forall (fun a : f64 => m <= B2R (f64_f32 a) <= V) [v_min; v_max; v0] ->
  Forall (fun a : f64 => Rabs (B2R (f64_f32 a)) <= 2) [g_min; g_max; ga0] ->
  Forall (fun a : f64 => Rabs (B2R (f64_f32 a)) <= A) [r_min; r_max; ro0] ->
  Forall (fun a : f64 => Rabs (B2R a) <= C) [gr_min; gr_max; rr_min; rr_max; acc_min; acc_max] ->
  1 <= m -> bpow radix2 (-98) <= c -> A + 1 / 1024 <= PI -> c <= cos (A + 1 / 1024) ->
  0 <= H -> Forall (fly3_ok H) l ->
  Forall (fun a : f64 => Rabs (B2R (f64_f32 a)) + INR (length l) * (H * V) + 1 <= B) [x0; y0; z0; hd0] ->
  B <= bpow radix2 99 -> V <= bpow radix2 98 -> first_error3 H V m c (length l) + fly3_error B H V C m c (length l) <= 1 ->
  Forall (fun b : f64 => Rabs (B2R b) <= q) [gr_min; gr_max; rr_min; rr_max] -> Forall (fun b : f64 => Rabs (B2R b) <= a) [acc_min; acc_max] ->
  let f (a : f64) := B2R (f64_f32 a) in
  f v_min <= f v0 <= f v_max -> f g_min <= f ga0 <= f g_max -> f r_min <= f ro0 <= f r_max ->
  let L := {| g_lo := f g_min; g_hi := f g_max; b_lo := f r_min; b_hi := f r_max; s_lo := f v_min; s_hi := f v_max;
              gr_lo := B2R gr_min; gr_hi := B2R gr_max; br_lo := B2R rr_min; br_hi := B2R rr_max;
              ac_lo := B2R acc_min; ac_hi := B2R acc_max |} in
  let p := {| qx := f x0; qy := f y0; qz := f z0; qh := f hd0; qg := f ga0; qr := f ro0; qv := f v0 |} in
  exists e s, fly_new3d lm mm w samples v_min v_max g_min g_max r_min r_max gr_min gr_max rr_min rr_max acc_min acc_max
      x0 y0 z0 hd0 ga0 ro0 v0 (map fly3_act l) = Ok e /\
    e_state e = A1 s /\ flies3 (first_error3 H V m c (length l) + fly3_error B H V C m c (length l) + path3_error H V m c a q (length l)) s (path3 L p (map fly3_num l)).
Proof.
  intros Ac At Am Atm Sa Fv Wl HV HG HA HC m9 c9 AP cA H0 Fl Fb B9 V9 Fe Hq Ha f Iv Ig Ir L p.
  destruct (fly_new3 lm mm w v_min v_max g_min g_max r_min r_max gr_min gr_max rr_min rr_max acc_min acc_max samples B H V C A m c
    x0 y0 z0 hd0 ga0 ro0 v0 l Ac At Am Atm Sa Fv Wl HV HG HA HC m9 c9 AP cA H0 Fl Fb B9 V9 Fe) as (e & s & R1 & R2 & R3).
  exists e, s. split; [exact R1|]. split; [exact R2|].
  pose proof (bpow_gt_0 radix2 (-98)) as P9.
  assert (m0 : 0 < m) by lra. assert (c0 : 0 < c) by lra.
  rewrite Forall_forall in HV, HA, Hq, Ha.
  assert (V1 : m <= s_lo L <= V) by (apply HV; cbn; tauto). assert (V2 : m <= s_hi L <= V) by (apply HV; cbn; tauto).
  assert (A1 : Rabs (b_lo L) <= A) by (apply HA; cbn; tauto). assert (A2 : Rabs (b_hi L) <= A) by (apply HA; cbn; tauto).
  assert (Q1 : Rabs (gr_lo L) <= q) by (apply Hq; cbn; tauto). assert (Q2 : Rabs (gr_hi L) <= q) by (apply Hq; cbn; tauto).
  assert (Q3 : Rabs (br_lo L) <= q) by (apply Hq; cbn; tauto). assert (Q4 : Rabs (br_hi L) <= q) by (apply Hq; cbn; tauto).
  assert (K1 : Rabs (ac_lo L) <= a) by (apply Ha; cbn; tauto). assert (K2 : Rabs (ac_hi L) <= a) by (apply Ha; cbn; tauto).
  assert (Co : forall t, Rabs t <= A -> c <= cos t) by (intros t Ht; apply (cos_small A c t AP cA); lra).
  destruct (aq0 L V m c a q m0 c0 V1 K1 Q1) as (a0 & q0 & W0 & J0 & V0).
  destruct (path3_close L V A m c a q m0 c0 V1 V2 A1 A2 Co K1 K2 Q1 Q2 Q3 Q4 H H0 (map fly3_num l) p p 0 0) as (X1 & X2 & X3 & X4 & X5 & X6 & X7); auto; try lra.
  - clear -Fl. induction Fl as [|[h u] l (_ & Hh & _) Fl IH]; cbn [map]; constructor; [exact Hh|exact IH].
  - rewrite Rminus_eq_0, Rabs_R0. lra.
  - rewrite Rminus_eq_0, Rabs_R0. lra.
  - rewrite Rminus_eq_0, Rabs_R0. lra.
  - rewrite Rminus_eq_0, Rabs_R0. lra.
  - rewrite map_length in X4, X5, X6, X7. rewrite !Rplus_0_l in X4, X5, X6, X7.
    assert (HH : 0 <= H * H / 2) by nra.
    assert (He : 0 <= head_error H m c a q (length l)) by (apply Rmult_le_pos; [apply pos_INR|apply Rmult_le_pos; lra]).
    assert (Hp : 0 <= INR (length l) * ((a + V * (turn_max m c + q)) * (H * H / 2) + H * V * head_error H m c a q (length l))).
    { apply Rmult_le_pos; [apply pos_INR|]. apply Rplus_le_le_0_compat.
      - apply Rmult_le_pos; [|lra]. apply Rplus_le_le_0_compat; [lra|]. apply Rmult_le_pos; lra.
      - apply Rmult_le_pos; [apply Rmult_le_pos; lra|lra]. }
    apply (flies3_path _ _ _ (fly3 L p (map fly3_num l))); auto; unfold path3_error; lra.
Qed.

Lemma new_path_ex (lm : libm) (m : libm32) (w : world f64) l : accurate lm -> accurate32 m -> length l = 100%nat -> Forall (fly_ok (1 / 100)) l ->
  exists e s, fly_new2d lm m w 0 (fl 200 1) (fl 400 1) (fl (-1) 1) (fl 1 1) (fl (-100) 1) (fl 100 1)
      (fl 1000 1) (fl 500 1) (fl 3 1) (fl 250 1) (map fly_act l) = Ok e /\ e_state e = A1 s /\
    flies 3 s (path {| v_lo := 200; v_hi := 400; r_lo := -1; r_hi := 1; a_lo := -100; a_hi := 100 |}
      {| px := 1000; py := 500; phead := 3; pv := 250 |} (map fly_num l)).
Proof.
  intros Ac Am Ll Fo.
  assert (N1 : is_finite (f64_f32 (fl 200 1)) = true /\ B2R (f64_f32 (fl 200 1)) = 200) by flv.
  assert (N2 : is_finite (f64_f32 (fl 400 1)) = true /\ B2R (f64_f32 (fl 400 1)) = 400) by flv.
  assert (N3 : is_finite (f64_f32 (fl 1000 1)) = true /\ B2R (f64_f32 (fl 1000 1)) = 1000) by flv.
  assert (N4 : is_finite (f64_f32 (fl 500 1)) = true /\ B2R (f64_f32 (fl 500 1)) = 500) by flv.
  assert (N5 : is_finite (f64_f32 (fl 3 1)) = true /\ B2R (f64_f32 (fl 3 1)) = 3) by flv.
  assert (N6 : is_finite (f64_f32 (fl 250 1)) = true /\ B2R (f64_f32 (fl 250 1)) = 250) by flv.
  assert (M1 : is_finite (fl (-1) 1) = true /\ B2R (fl (-1) 1) = -1) by flv.
  assert (M2 : is_finite (fl 1 1) = true /\ B2R (fl 1 1) = 1) by flv.
  assert (M3 : is_finite (fl (-100) 1) = true /\ B2R (fl (-100) 1) = -100) by flv.
  assert (M4 : is_finite (fl 100 1) = true /\ B2R (fl 100 1) = 100) by flv.
  assert (W : forall a r, is_finite a = true /\ B2R a = r -> Rabs r <= 1024 -> SpecRound.within 100 a).
  { intros a r [F <-] H. split; [exact F|]. eapply Rle_trans; [exact H|]. apply (bpow_le radix2 10). lia. }
  assert (T : forall k : R, k <= 2 ^ 20 -> k <= bpow radix2 99).
  { intros k H. eapply Rle_trans; [exact H|]. replace (2 ^ 20) with (bpow radix2 20) by (simpl; lra). apply bpow_le. lia. }
  pose proof path_num as Er. rewrite <- Ll in Er.
  assert (Fe : first_error (1 / 100) 400 <= 5 / 10000).
  { unfold first_error. assert (bpow radix2 (-140) <= / 1000000) by (apply (Rle_trans _ (bpow radix2 (-20))); [apply bpow_le; lia|simpl; lra]).
    simpl (bpow radix2 (-20)). lra. }
  destruct (new_path lm m w (fl 200 1) (fl 400 1) (fl (-1) 1) (fl 1 1) (fl (-100) 1) (fl 100 1) 0 1401 (1 / 100) 400 1 100
    (fl 1000 1) (fl 500 1) (fl 3 1) (fl 250 1) l) as (e & s & R & Es & Fs).
  - exact Ac.
  - exact Am.
  - lia.
  - repeat (constructor; [tauto|]). constructor.
  - repeat (constructor; [eapply W; [eassumption|apply Rabs_le; lra]|]). constructor.
  - repeat (constructor; [first [rewrite (proj2 N1) | rewrite (proj2 N2) | rewrite (proj2 N6)]; apply Rabs_le; lra|]). constructor.
  - repeat (constructor; [first [rewrite (proj2 M1) | rewrite (proj2 M2)]; apply Rabs_le; lra|]). constructor.
  - repeat (constructor; [first [rewrite (proj2 M3) | rewrite (proj2 M4)]; apply Rabs_le; lra|]). constructor.
  - rewrite (proj2 N1), (proj2 N2), (proj2 N6). lra.
  - lra.
  - exact Fo.
  - rewrite Ll. replace (INR 100) with 100 by (simpl; lra).
    repeat (constructor; [first [rewrite (proj2 N3) | rewrite (proj2 N4) | rewrite (proj2 N5)]; rewrite Rabs_pos_eq; lra|]). constructor.
  - apply T. simpl. lra.
  - apply T. simpl. lra.
  - lra.
  - exists e, s. split; [exact R|]. split; [exact Es|]. rewrite (proj2 N1), (proj2 N2), (proj2 N3), (proj2 N4), (proj2 N5), (proj2 N6),
      (proj2 M1), (proj2 M2), (proj2 M3), (proj2 M4) in Fs. eapply flies_mono; [|exact Fs]. rewrite Ll in *. replace (INR 100) with 100 by (simpl; lra).
    clear -Er Fe. set (u := fly_error _ _ _ _ _ _) in *. set (f := first_error _ _) in *. lra.
Qed.

Lemma new_num3 : first_error3 (1 / 100) 400 200 (1 / 2) 100 + fly3_error 1501 (1 / 100) 400 100 200 (1 / 2) 100 + path3_error (1 / 100) 400 200 (1 / 2) 100 1 100 <= 5.
Proof.
  unfold first_error3, first_move, first_turn, fly3_error, step_error3, turn_lip, path3_error, head_error, turn_jerk, turn_max. replace (INR 100) with 100 by (simpl; lra).
  assert (P6 : bpow radix2 (-699) <= bpow radix2 (-47)) by (apply bpow_le; lia).
  assert (P4 : bpow radix2 (-47) <= / 1000000000) by (apply (Rle_trans _ (bpow radix2 (-30))); [apply bpow_le; lia|simpl; lra]).
  assert (P7 : bpow radix2 (-147) <= bpow radix2 (-47)) by (apply bpow_le; lia). assert (P8 : bpow radix2 (-100) <= bpow radix2 (-47)) by (apply bpow_le; lia).
  assert (P0 : 0 <= bpow radix2 (-47)) by apply bpow_ge_0. assert (P1 : 0 <= bpow radix2 (-699)) by apply bpow_ge_0.
  simpl (bpow radix2 (-19)).
  lra.
Qed.
Lemma new_num31 : first_error3 (1 / 100) 400 200 (1 / 2) 100 + fly3_error 1501 (1 / 100) 400 100 200 (1 / 2) 100 <= 1.
Proof.
  unfold first_error3, first_move, first_turn, fly3_error, step_error3, turn_lip, turn_max. replace (INR 100) with 100 by (simpl; lra).
  assert (P6 : bpow radix2 (-699) <= bpow radix2 (-47)) by (apply bpow_le; lia).
  assert (P4 : bpow radix2 (-47) <= / 1000000000) by (apply (Rle_trans _ (bpow radix2 (-30))); [apply bpow_le; lia|simpl; lra]).
  assert (P7 : bpow radix2 (-147) <= bpow radix2 (-47)) by (apply bpow_le; lia). assert (P8 : bpow radix2 (-100) <= bpow radix2 (-47)) by (apply bpow_le; lia).
  assert (P0 : 0 <= bpow radix2 (-47)) by apply bpow_ge_0. assert (P1 : 0 <= bpow radix2 (-699)) by apply bpow_ge_0.
  simpl (bpow radix2 (-19)).
  lra.
Qed.
Lemma new_path3_ex (lm : libm) (mm : libm32) (w : world f64) l : accurate lm -> accurate_tan lm -> accurate32 mm -> accurate_tan32 mm ->
  length l = 100%nat -> Forall (fly3_ok (1 / 100)) l ->
  exists e s, fly_new3d lm mm w 0 (fl 200 1) (fl 400 1) (fl (-1) 1) (fl 1 1) (fl (-1) 1) (fl 1 1)
    (fl (-1) 1) (fl 1 1) (fl (-1) 1) (fl 1 1) (fl (-100) 1) (fl 100 1)
    (fl 1000 1) (fl 500 1) (fl (-500) 1) (fl 3 1) (fl 1 1) (fl (-1) 1) (fl 250 1) (map fly3_act l) = Ok e /\ e_state e = A1 s /\
    flies3 5 s (path3 {| g_lo := -1; g_hi := 1; b_lo := -1; b_hi := 1; s_lo := 200; s_hi := 400;
        gr_lo := -1; gr_hi := 1; br_lo := -1; br_hi := 1; ac_lo := -100; ac_hi := 100 |}
      {| qx := 1000; qy := 500; qz := -500; qh := 3; qg := 1; qr := -1; qv := 250 |} (map fly3_num l)).
Proof.
  intros Ac At Am Atm Ll Fo.
  assert (N1 : is_finite (f64_f32 (fl 200 1)) = true /\ B2R (f64_f32 (fl 200 1)) = 200) by flw.
  assert (N2 : is_finite (f64_f32 (fl 400 1)) = true /\ B2R (f64_f32 (fl 400 1)) = 400) by flw.
  assert (N3 : is_finite (f64_f32 (fl 1000 1)) = true /\ B2R (f64_f32 (fl 1000 1)) = 1000) by flw.
  assert (N4 : is_finite (f64_f32 (fl 500 1)) = true /\ B2R (f64_f32 (fl 500 1)) = 500) by flw.
  assert (N5 : is_finite (f64_f32 (fl 3 1)) = true /\ B2R (f64_f32 (fl 3 1)) = 3) by flw.
  assert (N6 : is_finite (f64_f32 (fl 250 1)) = true /\ B2R (f64_f32 (fl 250 1)) = 250) by flw.
  assert (N7 : is_finite (f64_f32 (fl (-500) 1)) = true /\ B2R (f64_f32 (fl (-500) 1)) = -500) by flw.
  assert (N8 : is_finite (f64_f32 (fl (-1) 1)) = true /\ B2R (f64_f32 (fl (-1) 1)) = -1) by flw.
  assert (N9 : is_finite (f64_f32 (fl 1 1)) = true /\ B2R (f64_f32 (fl 1 1)) = 1) by flw.
  assert (M1 : is_finite (fl (-1) 1) = true /\ B2R (fl (-1) 1) = -1) by flw.
  assert (M2 : is_finite (fl 1 1) = true /\ B2R (fl 1 1) = 1) by flw.
  assert (M3 : is_finite (fl (-100) 1) = true /\ B2R (fl (-100) 1) = -100) by flw.
  assert (M4 : is_finite (fl 100 1) = true /\ B2R (fl 100 1) = 100) by flw.
  assert (W : forall a r, is_finite a = true /\ B2R a = r -> Rabs r <= 1024 -> SpecRound.within 100 a).
  { intros a r [F <-] H. split; [exact F|]. eapply Rle_trans; [exact H|]. apply (bpow_le radix2 10). lia. }
  assert (T : forall k : R, k <= 2 ^ 20 -> k <= bpow radix2 98).
  { intros k H. eapply Rle_trans; [exact H|]. replace (2 ^ 20) with (bpow radix2 20) by (simpl; lra). apply bpow_le. lia. }
  assert (T9 : bpow radix2 98 <= bpow radix2 99) by (apply bpow_le; lia).
  pose proof new_num3 as Er. pose proof new_num31 as Er1. rewrite <- Ll in Er, Er1.
  destruct (new_path3 lm mm w (fl 200 1) (fl 400 1) (fl (-1) 1) (fl 1 1) (fl (-1) 1) (fl 1 1)
      (fl (-1) 1) (fl 1 1) (fl (-1) 1) (fl 1 1) (fl (-100) 1) (fl 100 1) 0 1501 (1 / 100) 400 100 1 200 (1 / 2) 100 1
      (fl 1000 1) (fl 500 1) (fl (-500) 1) (fl 3 1) (fl 1 1) (fl (-1) 1) (fl 250 1) l) as (e & s & R & Es & Fs).
  - exact Ac.
  - exact At.
  - exact Am.
  - exact Atm.
  - lia.
  - repeat (constructor; [tauto|]). constructor.
  - repeat (constructor; [eapply W; [eassumption|apply Rabs_le; lra]|]). constructor.
  - repeat (constructor; [first [rewrite (proj2 N1) | rewrite (proj2 N2) | rewrite (proj2 N6)]; lra|]). constructor.
  - repeat (constructor; [first [rewrite (proj2 N8) | rewrite (proj2 N9)]; apply Rabs_le; lra|]). constructor.
  - repeat (constructor; [first [rewrite (proj2 N8) | rewrite (proj2 N9)]; apply Rabs_le; lra|]). constructor.
  - repeat (constructor; [first [rewrite (proj2 M1) | rewrite (proj2 M2) | rewrite (proj2 M3) | rewrite (proj2 M4)]; apply Rabs_le; lra|]). constructor.
  - lra.
  - apply (Rle_trans _ (bpow radix2 (-1))); [apply bpow_le; lia|simpl; lra].
  - pose proof PI2_1. lra.
  - exact cos_half.
  - lra.
  - exact Fo.
  - rewrite Ll. replace (INR 100) with 100 by (simpl; lra).
    repeat (constructor; [first [rewrite (proj2 N3) | rewrite (proj2 N4) | rewrite (proj2 N5) | rewrite (proj2 N7)]; unfold Rabs; destruct (Rcase_abs _); lra|]).
    constructor.
  - eapply Rle_trans; [|exact T9]. apply T. simpl. lra.
  - apply T. simpl. lra.
  - exact Er1.
  - repeat (constructor; [first [rewrite (proj2 M1) | rewrite (proj2 M2)]; apply Rabs_le; lra|]). constructor.
  - repeat (constructor; [first [rewrite (proj2 M3) | rewrite (proj2 M4)]; apply Rabs_le; lra|]). constructor.
  - rewrite (proj2 N1), (proj2 N2), (proj2 N6). lra.
  - rewrite (proj2 N8), (proj2 N9). lra.
  - rewrite (proj2 N8), (proj2 N9). lra.
  - exists e, s. split; [exact R|]. split; [exact Es|]. cbv zeta in Fs. rewrite (proj2 N1), (proj2 N2), (proj2 N3), (proj2 N4), (proj2 N5), (proj2 N6),
      (proj2 N7), (proj2 N8), (proj2 N9), (proj2 M1), (proj2 M2), (proj2 M3), (proj2 M4) in Fs. eapply flies3_mono; [|exact Fs]. exact Er.
Qed.
