(** Flights of a new three-dimensional aircraft (C115). *)
From Coq Require Import String ZArith Reals Bool List Lra Lia Psatz.
From Flocq Require Import Core.Core IEEE754.BinarySingleNaN.
From Verif Require Import PyBase Num Arr BaseModel Dubins Spec SpecCwh
  Float64 XTac F64Err SpecRound SpecFly SpecFly3 FlyEx Fly3Round Fly3Run Fly3Ex F32 Fresh SpecFresh FreshLemmas Fresh3.
Import List ListNotations.
Local Open Scope R_scope.

Section F.
  Variable lm : libm.
  Local Hint Extern 0 (Num f64) => exact (F64 lm) : typeclass_instances.

  Lemma fly_new3 (mm : libm32) (w : world f64) v_min v_max g_min g_max r_min r_max gr_min gr_max rr_min rr_max acc_min acc_max samples B H V C A m c
      x0 y0 z0 hd0 ga0 ro0 v0 l :
    accurate lm -> accurate_tan lm -> accurate32 mm -> accurate_tan32 mm -> (samples <= 0)%Z ->
    Forall (fun a : f64 => is_finite (f64_f32 a) = true) [v_min; v_max; g_min; g_max; r_min; r_max; x0; y0; z0; hd0; ga0; ro0; v0] ->
    Forall (within 100) [gr_min; gr_max; rr_min; rr_max; acc_min; acc_max] ->
    Forall (fun a : f64 => m <= B2R (f64_f32 a) <= V) [v_min; v_max; v0] ->
    Forall (fun a : f64 => Rabs (B2R (f64_f32 a)) <= 2) [g_min; g_max; ga0] ->
    Forall (fun a : f64 => Rabs (B2R (f64_f32 a)) <= A) [r_min; r_max; ro0] ->
    Forall (fun a : f64 => Rabs (B2R a) <= C) [gr_min; gr_max; rr_min; rr_max; acc_min; acc_max] ->
    1 <= m -> bpow radix2 (-98) <= c -> A + 1 / 1024 <= PI -> c <= cos (A + 1 / 1024) ->
    0 <= H -> Forall (fly3_ok H) l ->
    Forall (fun a : f64 => Rabs (B2R (f64_f32 a)) + INR (length l) * (H * V) + 1 <= B) [x0; y0; z0; hd0] ->
    B <= bpow radix2 99 -> V <= bpow radix2 98 -> first_error3 H V m c (length l) + fly3_error B H V C m c (length l) <= 1 ->
    let f (a : f64) := B2R (f64_f32 a) in
    let L := {| g_lo := f g_min; g_hi := f g_max; b_lo := f r_min; b_hi := f r_max; s_lo := f v_min; s_hi := f v_max;
                gr_lo := B2R gr_min; gr_hi := B2R gr_max; br_lo := B2R rr_min; br_hi := B2R rr_max;
                ac_lo := B2R acc_min; ac_hi := B2R acc_max |} in
    let p := {| qx := f x0; qy := f y0; qz := f z0; qh := f hd0; qg := f ga0; qr := f ro0; qv := f v0 |} in
    exists e s, fly_new3d lm mm w samples v_min v_max g_min g_max r_min r_max gr_min gr_max rr_min rr_max acc_min acc_max
        x0 y0 z0 hd0 ga0 ro0 v0 (map fly3_act l) = Ok e /\
      e_state e = A1 s /\ flies3 (first_error3 H V m c (length l) + fly3_error B H V C m c (length l)) s (fly3 L p (map fly3_num l)).
  Proof.
    intros Ac At Am Atm Sa Ff' Wc SV SG SR SC M0 c0 Api Ca H0 Fo SB B99 V98 Er f L p.
    assert (Fs : Forall (fun a : f64 => is_finite (f64_f32 a) = true) [x0; y0; z0; hd0; ga0; ro0; v0]) by (exact (proj2 (proj1 (Forall_app _ [v_min; v_max; g_min; g_max; r_min; r_max] _) Ff'))).
    assert (Ff : Forall (fun a : f64 => is_finite (f64_f32 a) = true) [v_min; v_max; g_min; g_max; r_min; r_max]) by (exact (proj1 (proj1 (Forall_app _ [v_min; v_max; g_min; g_max; r_min; r_max] _) Ff'))).
    apply Forall_cons_iff in SV as [V1 SV]. apply Forall_cons_iff in SV as [V2 SV]. apply Forall_cons_iff in SV as [V3 _].
    apply Forall_cons_iff in SG as [G1 SG]. apply Forall_cons_iff in SG as [G2 SG]. apply Forall_cons_iff in SG as [G3 _].
    apply Forall_cons_iff in SR as [R1 SR]. apply Forall_cons_iff in SR as [R2 SR]. apply Forall_cons_iff in SR as [R3 _].
    assert (SV' : Forall (fun a : f64 => m <= B2R (f64_f32 a) <= V) [v_min; v_max]) by (repeat (constructor; [assumption|]); constructor).
    assert (SG' : Forall (fun a : f64 => Rabs (B2R (f64_f32 a)) <= 2) [g_min; g_max]) by (repeat (constructor; [assumption|]); constructor).
    assert (SR' : Forall (fun a : f64 => Rabs (B2R (f64_f32 a)) <= A) [r_min; r_max]) by (repeat (constructor; [assumption|]); constructor).
    apply Forall_cons_iff in SB as [B1 SB]. apply Forall_cons_iff in SB as [B2 SB]. apply Forall_cons_iff in SB as [B3 SB]. apply Forall_cons_iff in SB as [B4 _].
    fold (f x0) in B1. fold (f y0) in B2. fold (f z0) in B3. fold (f hd0) in B4.
    set (X := Rmax (Rmax (Rabs (f x0)) (Rabs (f y0))) (Rabs (f z0))).
    assert (X1 : Rabs (f x0) <= X) by (eapply Rle_trans; [apply Rmax_l|apply Rmax_l]).
    assert (X2 : Rabs (f y0) <= X) by (eapply Rle_trans; [apply Rmax_r|apply Rmax_l]).
    assert (X3 : Rabs (f z0) <= X) by apply Rmax_r.
    pose proof (Rle_trans _ _ _ (Rabs_pos (f x0)) X1) as X0.
    assert (Bx : X + INR (length l) * (H * V) + 1 <= B) by (unfold X, Rmax; repeat destruct (Rle_dec _ _); lra).
    assert (V0 : 0 < V) by lra. assert (c1 : 0 < c) by (pose proof (bpow_gt_0 radix2 (-98)); lra).
    assert (C0 : 0 <= C) by (apply Forall_cons_iff in SC as [C1 _]; eapply Rle_trans; [apply Rabs_pos|exact C1]).
    set (W := turn_max m c) in *.
    assert (W0 : 0 <= W) by (unfold W, turn_max, Rdiv; apply Rmult_le_pos; [lra|left; apply Rinv_0_lt_compat, Rmult_lt_0_compat; lra]).
    assert (T0 : 0 <= turn_lip m c).
    { unfold turn_lip. fold (turn_max m c). fold W. assert (0 < / m) by (apply Rinv_0_lt_compat; lra). assert (0 < / c) by (apply Rinv_0_lt_compat; lra).
      apply Rmult_le_pos; lra. }
    assert (HV : 0 <= H * V) by (apply Rmult_le_pos; lra). pose proof (pos_INR (length l)) as N0.
    assert (NHV : 0 <= INR (length l) * (H * V)) by (apply Rmult_le_pos; lra).
    assert (D0 : 0 <= first_move H V).
    { unfold first_move. apply Rmult_le_pos; [exact H0|]. pose proof (bpow_ge_0 radix2 (-147)).
      assert (0 <= bpow radix2 (-19) * V) by (apply Rmult_le_pos; [apply bpow_ge_0|lra]). lra. }
    assert (Q0 : 0 <= first_turn H W).
    { unfold first_turn. apply Rmult_le_pos; [exact H0|]. pose proof (bpow_ge_0 radix2 (-100)).
      assert (0 <= bpow radix2 (-19) * W) by (apply Rmult_le_pos; [apply bpow_ge_0|lra]). lra. }
    assert (NQ : 0 <= INR (length l) * (H * V * first_turn H W)) by (apply Rmult_le_pos; [lra|apply Rmult_le_pos; lra]).
    assert (FE : 0 <= fly3_error B H V C m c (length l)).
    { unfold fly3_error, step_error3. fold W. pose proof (bpow_ge_0 radix2 (-47)). pose proof (bpow_ge_0 radix2 (-699)).
      assert (0 <= H * (V + W + C)) by (apply Rmult_le_pos; lra). assert (0 <= H * (1 + 2 * V + turn_lip m c)) by (apply Rmult_le_pos; lra).
      assert (0 <= H * H * V * turn_lip m c) by (apply Rmult_le_pos; [apply Rmult_le_pos; [apply Rmult_le_pos; lra|lra]|lra]).
      assert (0 <= bpow radix2 (-47) * (B + V + H * (V + W + C) + 13)) by (apply Rmult_le_pos; lra).
      apply Rmult_le_pos; [|lra]. apply Rmult_le_pos; [lra|].
      assert (0 <= H * (1 + 2 * V + turn_lip m c) * INR (length l)) by (apply Rmult_le_pos; lra).
      assert (0 <= H * H * V * turn_lip m c * (INR (length l) * INR (length l))) by (apply Rmult_le_pos; [lra|apply Rmult_le_pos; lra]). lra. }
    unfold first_error3 in *. fold W in Er |- *.
    destruct l as [|[h [[gr rr] acc]] l].
    - exists (dubins3d_aircraft samples "Euler" v_min v_max g_min g_max r_min r_max gr_min gr_max rr_min rr_max acc_min acc_max x0 y0 z0 hd0 ga0 ro0 v0),
        (map f64_f32 [x0; y0; z0; hd0; ga0; ro0; v0]).
      split; [reflexivity|]. split; [reflexivity|]. cbn [map fly3 flies3 p qx qy qz qh qg qr qv].
      split; [apply Forall_map with (f := f64_f32) (l := [x0; y0; z0; hd0; ga0; ro0; v0]); exact Fs|].
      unfold f. rewrite !Rminus_eq_0, Rabs_R0. split; [lra|]. split; [lra|]. split; [lra|]. split; [|lra].
      exists 0%Z. rewrite Rmult_0_r, Rmult_0_l, Rplus_0_r, Rminus_eq_0, Rabs_R0. lra.
    - apply Forall_cons_iff in Fo as [(Wh & Hh & Fg & Fr & Fa) Fo]. cbn [fst snd] in Wh, Hh, Fg, Fr, Fa.
      set (n := length ((h, (gr, rr, acc)) :: l)) in *.
      assert (FMa : first_move H V <= 1) by lra. assert (FTa : first_turn H (turn_max m c) <= 1) by (fold W; lra).
      assert (Hda : Rabs (B2R (f64_f32 hd0)) + 1 <= B) by (fold (f hd0); lra).
      assert (Nn : (1 <= n)%nat) by (unfold n; cbn; lia).
      destruct (new_step3 lm mm w v_min v_max g_min g_max r_min r_max gr_min gr_max rr_min rr_max acc_min acc_max samples B H V C X A m c n
        Am Atm Sa Ff Wc SV' SG' SR' SC M0 c0 Api Ca H0 X0 Nn Bx B99 V98 FMa FTa
        x0 y0 z0 hd0 ga0 ro0 v0 h gr rr acc Fs X1 X2 X3 Hda G3 R3 V3 Wh Hh ltac:(repeat (constructor; [assumption|]); constructor)) as [S1 I].
      assert (M' : bpow radix2 (-100) <= m) by (apply (Rle_trans _ (bpow radix2 0)); [apply bpow_le; lia|exact M0]).
      assert (c' : bpow radix2 (-100) <= c) by (apply (Rle_trans _ (bpow radix2 (-98))); [apply bpow_le; lia|exact c0]).
      assert (V99 : V <= bpow radix2 99) by (apply (Rle_trans _ (bpow radix2 98)); [exact V98|apply bpow_le; lia]).
      assert (Er' : fly3_error B H V C m c n + (first_move H V + INR n * (H * V * first_turn H W)) <= 1) by lra.
      destruct (fly3_run lm w v_min v_max g_min g_max r_min r_max gr_min gr_max rr_min rr_max acc_min acc_max samples B H V C X A m c
        (first_move H V) (first_turn H W) n Ac At Sa Ff Wc SV' SG' SR' SC M' c' Api Ca H0 X0 Bx B99 V99 Q0 Er'
        l 1%nat _ _ ltac:(unfold n; cbn; lia) I Fo) as (e & R & I').
      destruct (fly3_inv_flies lm v_min v_max g_min g_max r_min r_max gr_min gr_max rr_min rr_max acc_min acc_max samples B H V C X A m c
        (first_move H V) (first_turn H W) n SV' SC M' c' H0 X0 Bx D0 Q0 _ _ _ I') as (s & Es & Fl).
      exists e, s. split; [|split; [exact Es|]].
      + unfold fly_new3d, run_fresh. cbn [map fly3_act fst snd]. rewrite S1. cbn [bind]. exact R.
      + eapply flies3_mono; [|exact Fl]. change (1 + length l)%nat with n. lra.
  Qed.
End F.

(** The aircraft of [fly3_ex], from the constructor. *)
Lemma first_num : first_error3 (1 / 10) 400 200 (1 / 2) 100 <= 1 / 1000.
Proof.
  unfold first_error3, first_move, first_turn, turn_max. replace (INR 100) with 100 by (simpl; lra).
  replace (32.17 / (200 * (1 / 2))) with (0.3217) by lra.
  assert (bpow radix2 (-147) <= / 1000000) by (apply (Rle_trans _ (bpow radix2 (-20))); [apply bpow_le; lia|simpl; lra]).
  assert (P : bpow radix2 (-100) <= / 1000000000) by (apply (Rle_trans _ (bpow radix2 (-30))); [apply bpow_le; lia|simpl; lra]).
  simpl (bpow radix2 (-19)). lra.
Qed.
Lemma new3_ex (lm : libm) (mm : libm32) (w : world f64) l : accurate lm -> accurate_tan lm -> accurate32 mm -> accurate_tan32 mm ->
  length l = 100%nat -> Forall (fly3_ok (1 / 10)) l ->
  exists e s, fly_new3d lm mm w 0 (fl 200 1) (fl 400 1) (fl (-1) 1) (fl 1 1) (fl (-1) 1) (fl 1 1)
    (fl (-1) 1) (fl 1 1) (fl (-1) 1) (fl 1 1) (fl (-100) 1) (fl 100 1)
    (fl 1000 1) (fl 500 1) (fl (-500) 1) (fl 3 1) (fl 1 1) (fl (-1) 1) (fl 250 1) (map fly3_act l) = Ok e /\ e_state e = A1 s /\
    flies3 (2 / 1000) s (fly3 {| g_lo := -1; g_hi := 1; b_lo := -1; b_hi := 1; s_lo := 200; s_hi := 400;
        gr_lo := -1; gr_hi := 1; br_lo := -1; br_hi := 1; ac_lo := -100; ac_hi := 100 |}
      {| qx := 1000; qy := 500; qz := -500; qh := 3; qg := 1; qr := -1; qv := 250 |} (map fly3_num l)).
Proof.
  intros Ac At Am Atm Ll Fo.
  assert (N1 : is_finite (f64_f32 (fl 200 1)) = true /\ B2R (f64_f32 (fl 200 1)) = 200) by flw.
  assert (N2 : is_finite (f64_f32 (fl 400 1)) = true /\ B2R (f64_f32 (fl 400 1)) = 400) by flw.
  assert (N3 : is_finite (f64_f32 (fl 1000 1)) = true /\ B2R (f64_f32 (fl 1000 1)) = 1000) by flw.
  assert (N4 : is_finite (f64_f32 (fl 500 1)) = true /\ B2R (f64_f32 (fl 500 1)) = 500) by flw.
  assert (N5 : is_finite (f64_f32 (fl 3 1)) = true /\ B2R (f64_f32 (fl 3 1)) = 3) by flw.
  assert (N6 : is_finite (f64_f32 (fl 250 1)) = true /\ B2R (f64_f32 (fl 250 1)) = 250) by flw.
  assert (N7 : is_finite (f64_f32 (fl (-500) 1)) = true /\ B2R (f64_f32 (fl (-500) 1)) = -500) by flw.
  assert (N8 : is_finite (f64_f32 (fl (-1) 1)) = true /\ B2R (f64_f32 (fl (-1) 1)) = -1) by flw.
  assert (N9 : is_finite (f64_f32 (fl 1 1)) = true /\ B2R (f64_f32 (fl 1 1)) = 1) by flw.
  assert (M1 : is_finite (fl (-1) 1) = true /\ B2R (fl (-1) 1) = -1) by flw.
  assert (M2 : is_finite (fl 1 1) = true /\ B2R (fl 1 1) = 1) by flw.
  assert (M3 : is_finite (fl (-100) 1) = true /\ B2R (fl (-100) 1) = -100) by flw.
  assert (M4 : is_finite (fl 100 1) = true /\ B2R (fl 100 1) = 100) by flw.
  assert (W : forall a r, is_finite a = true /\ B2R a = r -> Rabs r <= 1024 -> within 100 a).
  { intros a r [F <-] H. split; [exact F|]. eapply Rle_trans; [exact H|]. apply (bpow_le radix2 10). lia. }
  assert (T : forall k : R, k <= 2 ^ 20 -> k <= bpow radix2 98).
  { intros k H. eapply Rle_trans; [exact H|]. replace (2 ^ 20) with (bpow radix2 20) by (simpl; lra). apply bpow_le. lia. }
  assert (T9 : bpow radix2 98 <= bpow radix2 99) by (apply bpow_le; lia).
  pose proof fly3_num_ex as Er. rewrite <- Ll in Er. pose proof first_num as Er1. rewrite <- Ll in Er1.
  destruct (fly_new3 lm mm w (fl 200 1) (fl 400 1) (fl (-1) 1) (fl 1 1) (fl (-1) 1) (fl 1 1)
      (fl (-1) 1) (fl 1 1) (fl (-1) 1) (fl 1 1) (fl (-100) 1) (fl 100 1) 0 5101 (1 / 10) 400 100 1 200 (1 / 2)
      (fl 1000 1) (fl 500 1) (fl (-500) 1) (fl 3 1) (fl 1 1) (fl (-1) 1) (fl 250 1) l) as (e & s & R & Es & Fs).
  - exact Ac.
  - exact At.
  - exact Am.
  - exact Atm.
  - lia.
  - repeat (constructor; [tauto|]). constructor.
  - repeat (constructor; [eapply W; [eassumption|apply Rabs_le; lra]|]). constructor.
  - repeat (constructor; [first [rewrite (proj2 N1) | rewrite (proj2 N2) | rewrite (proj2 N6)]; lra|]). constructor.
  - repeat (constructor; [first [rewrite (proj2 N8) | rewrite (proj2 N9)]; apply Rabs_le; lra|]). constructor.
  - repeat (constructor; [first [rewrite (proj2 N8) | rewrite (proj2 N9)]; apply Rabs_le; lra|]). constructor.
  - repeat (constructor; [first [rewrite (proj2 M1) | rewrite (proj2 M2) | rewrite (proj2 M3) | rewrite (proj2 M4)]; apply Rabs_le; lra|]). constructor.
  - lra.
  - apply (Rle_trans _ (bpow radix2 (-1))); [apply bpow_le; lia|simpl; lra].
  - pose proof PI2_1. lra.
  - exact cos_half.
  - lra.
  - exact Fo.
  - rewrite Ll. replace (INR 100) with 100 by (simpl; lra).
    repeat (constructor; [first [rewrite (proj2 N3) | rewrite (proj2 N4) | rewrite (proj2 N5) | rewrite (proj2 N7)]; unfold Rabs; destruct (Rcase_abs _); lra|]).
    constructor.
  - eapply Rle_trans; [|exact T9]. apply T. simpl. lra.
  - apply T. simpl. lra.
  - lra.
  - exists e, s. split; [exact R|]. split; [exact Es|]. cbv zeta in Fs. rewrite (proj2 N1), (proj2 N2), (proj2 N3), (proj2 N4), (proj2 N5), (proj2 N6),
      (proj2 N7), (proj2 N8), (proj2 N9), (proj2 M1), (proj2 M2), (proj2 M3), (proj2 M4) in Fs. eapply flies3_mono; [|exact Fs]. lra.
Qed.
