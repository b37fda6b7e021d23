(** Three-dimensional flights from the constructor, and examples (C114). *)
From Coq Require Import String ZArith Reals Bool List Lra Lia Psatz.
From Flocq Require Import Core.Core IEEE754.BinarySingleNaN.
From Verif Require Import PyBase Num Arr BaseModel Dubins Spec SpecCwh NumOrdLemmas ArrLemmas BaseLemmas BaseLemmas2 BaseLemmas3 LimLemmas
  Float64 XTac F64Wrap F64Bound F64Err ConvLemmas SpecRound RoundCwh SpecLin LinRound WrapErr SpecFly SpecFly3 FlyRound FlyRun FlyEx Fly3Round Fly3Run.
Import List ListNotations.
Local Open Scope R_scope.

Section F.
  Variable lm : libm.
  Local Hint Extern 0 (Num f64) => exact (F64 lm) : typeclass_instances.

  Lemma fly3_main (w : world f64) v_min v_max g_min g_max r_min r_max gr_min gr_max rr_min rr_max acc_min acc_max samples B H V C A m c
      xc yc zc hdc gac roc vc x0 y0 z0 hd0 ga0 ro0 v0 l :
    accurate lm -> accurate_tan lm -> (samples <= 0)%Z ->
    Forall (fun a : f64 => is_finite (f64_f32 a) = true) [v_min; v_max; g_min; g_max; r_min; r_max] ->
    Forall (fun a : f64 => is_finite a = true) [x0; y0; z0; hd0; ga0; ro0; v0] ->
    Forall (within 100) [gr_min; gr_max; rr_min; rr_max; acc_min; acc_max] ->
    Forall (fun a : f64 => m <= B2R a <= V) [f64_f32 v_min; f64_f32 v_max; v0] ->
    Forall (fun a : f64 => Rabs (B2R a) <= 2) [f64_f32 g_min; f64_f32 g_max; ga0] ->
    Forall (fun a : f64 => Rabs (B2R a) <= A) [f64_f32 r_min; f64_f32 r_max; ro0] ->
    Forall (fun a : f64 => Rabs (B2R a) <= C) [gr_min; gr_max; rr_min; rr_max; acc_min; acc_max] ->
    bpow radix2 (-100) <= m -> bpow radix2 (-100) <= c -> A + 1 / 1024 <= PI -> c <= cos (A + 1 / 1024) ->
    0 <= H -> Forall (fly3_ok H) l ->
    Forall (fun a : f64 => Rabs (B2R a) + INR (length l) * (H * V) + 1 <= B) [x0; y0; z0; hd0] ->
    B <= bpow radix2 99 -> V <= bpow radix2 99 -> fly3_error B H V C m c (length l) <= 1 ->
    let f (a : f64) := B2R (f64_f32 a) in
    let L := {| g_lo := f g_min; g_hi := f g_max; b_lo := f r_min; b_hi := f r_max; s_lo := f v_min; s_hi := f v_max;
                gr_lo := B2R gr_min; gr_hi := B2R gr_max; br_lo := B2R rr_min; br_hi := B2R rr_max;
                ac_lo := B2R acc_min; ac_hi := B2R acc_max |} in
    let p := {| qx := B2R x0; qy := B2R y0; qz := B2R z0; qh := B2R hd0; qg := B2R ga0; qr := B2R ro0; qv := B2R v0 |} in
    let a := dubins3d_aircraft samples "Euler" v_min v_max g_min g_max r_min r_max gr_min gr_max rr_min rr_max acc_min acc_max xc yc zc hdc gac roc vc in
    exists e s, run w (set_state a (A1 [x0; y0; z0; hd0; ga0; ro0; v0])) (map fly3_act l) = Ok e /\
      e_state e = A1 s /\ flies3 (fly3_error B H V C m c (length l)) s (fly3 L p (map fly3_num l)).
  Proof.
    intros Ac At Sa Ff' Fs Wc SV SG SR SC M0 c0 Api Ca H0 Fo SB B99 V99 Er f L p a.
    apply Forall_cons_iff in SV as [V1 SV]. apply Forall_cons_iff in SV as [V2 SV]. apply Forall_cons_iff in SV as [V3 _].
    apply Forall_cons_iff in SG as [G1 SG]. apply Forall_cons_iff in SG as [G2 SG]. apply Forall_cons_iff in SG as [G3 _].
    apply Forall_cons_iff in SR as [R1 SR]. apply Forall_cons_iff in SR as [R2 SR]. apply Forall_cons_iff in SR as [R3 _].
    assert (SV' : Forall (fun a : f64 => m <= B2R (f64_f32 a) <= V) [v_min; v_max]) by (repeat (constructor; [assumption|]); constructor).
    assert (SG' : Forall (fun a : f64 => Rabs (B2R (f64_f32 a)) <= 2) [g_min; g_max]) by (repeat (constructor; [assumption|]); constructor).
    assert (SR' : Forall (fun a : f64 => Rabs (B2R (f64_f32 a)) <= A) [r_min; r_max]) by (repeat (constructor; [assumption|]); constructor).
    apply Forall_cons_iff in SB as [B1 SB]. apply Forall_cons_iff in SB as [B2 SB]. apply Forall_cons_iff in SB as [B3 SB]. apply Forall_cons_iff in SB as [B4 _].
    set (X := Rmax (Rmax (Rabs (B2R x0)) (Rabs (B2R y0))) (Rabs (B2R z0))).
    assert (X1 : Rabs (B2R x0) <= X) by (eapply Rle_trans; [apply Rmax_l|apply Rmax_l]).
    assert (X2 : Rabs (B2R y0) <= X) by (eapply Rle_trans; [apply Rmax_r|apply Rmax_l]).
    assert (X3 : Rabs (B2R z0) <= X) by apply Rmax_r.
    pose proof (Rle_trans _ _ _ (Rabs_pos (B2R x0)) X1) as X0.
    assert (Bx : X + INR (length l) * (H * V) + 1 <= B) by (unfold X, Rmax; repeat destruct (Rle_dec _ _); lra).
    set (e0 := set_state a (A1 [x0; y0; z0; hd0; ga0; ro0; v0])).
    assert (V0' : 0 <= V) by (pose proof (bpow_gt_0 radix2 (-100)); lra).
    assert (NHV : 0 <= INR (length l) * (H * V)) by (apply Rmult_le_pos; [apply pos_INR|apply Rmult_le_pos; assumption]).
    assert (I : fly3_inv lm v_min v_max g_min g_max r_min r_max gr_min gr_max rr_min rr_max acc_min acc_max samples B H V C X A m c 0 0 0 e0 p).
    { unfold fly3_inv. repeat (split; [reflexivity|]). cbn [p qx qy qz qh qg qr qv INR]. rewrite ?Rmult_0_l, ?Rmult_0_r, ?Rplus_0_r.
      split; [exact X1|]. split; [exact X2|]. split; [exact X3|]. split; [exact V3|]. split; [exact R3|].
      exists x0, y0, z0, hd0, ga0, ro0, v0. split; [reflexivity|].
      split; [exact Fs|].
      assert (Z : 0 <= fly3_error B H V C m c 0) by (unfold fly3_error; cbn [INR]; rewrite !Rmult_0_l; lra).
      rewrite !Rminus_eq_0, Rabs_R0. split; [exact Z|]. split; [exact Z|]. split; [exact Z|]. split.
      { exists 0%Z. rewrite ?Rmult_0_r, ?Rmult_0_l, ?Rplus_0_r, Rminus_eq_0, Rabs_R0. lra. }
      split; [lra|]. split; [lra|]. split; [lra|]. split; [exact V3|]. split; [lra|]. split; lra. }
    assert (Er' : fly3_error B H V C m c (length l) + (0 + INR (length l) * (H * V * 0)) <= 1) by (rewrite !Rmult_0_r, !Rplus_0_r; exact Er).
    destruct (fly3_run lm w v_min v_max g_min g_max r_min r_max gr_min gr_max rr_min rr_max acc_min acc_max samples B H V C X A m c 0 0 (length l)
      Ac At Sa Ff' Wc SV' SG' SR' SC M0 c0 Api Ca H0 X0 Bx B99 V99 (Rle_refl 0) Er' l 0 e0 p ltac:(lia) I Fo) as (e & R & I').
    destruct (fly3_inv_flies lm v_min v_max g_min g_max r_min r_max gr_min gr_max rr_min rr_max acc_min acc_max samples B H V C X A m c 0 0 (length l)
      SV' SC M0 c0 H0 X0 Bx (Rle_refl 0) (Rle_refl 0) _ _ _ I') as (s & Es & Fl).
    rewrite !Rmult_0_r, !Rplus_0_r in Fl. exists e, s. auto.
  Qed.
End F.

(** A library that rounds the exact tangent to nearest. *)
Definition near64 (x : R) : f64 := f64_of (ZnearestE (scaled_mantissa radix2 fexp64 x)) (cexp radix2 fexp64 x).
Lemma near64_ok x : Rabs x <= bpow radix2 100 -> is_finite (near64 x) = true /\ B2R (near64 x) = rnd64 x.
Proof.
  intros Hx. unfold near64, f64_of. set (z := ZnearestE _). set (e := cexp _ _ _).
  pose proof (binary_normalize_correct 53 1024 _ _ mode_NE z e false) as Q. cbv zeta in Q.
  change (F2R (Float radix2 z e)) with (rnd64 x) in Q.
  rewrite rnd64_id in Q by (apply generic_format_round; [apply fexp64_valid|apply valid_rnd_round_mode]).
  rewrite Rlt_bool_true in Q.
  - destruct Q as (Q1 & Q2 & _). split; [exact Q2|exact Q1].
  - eapply Rle_lt_trans; [apply (rnd_bounded 100); [lia|exact Hx]|apply bpow_lt; lia].
Qed.
Definition lm_near : libm :=
  {| lm_sin := fun x => grid (sin (B2R x)); lm_cos := fun x => grid (cos (B2R x)); lm_tan := fun x => near64 (tan (B2R x));
     lm_asin := fun x => x; lm_pow := fun x _ => x |}.
Lemma accurate_tan_ex : accurate lm_near /\ accurate_tan lm_near.
Proof.
  split.
  - intros a _. split; apply grid_ok; apply Rabs_le; [apply COS_bound|apply SIN_bound].
  - intros a _ Ha. change (lm_tan lm_near a) with (near64 (tan (B2R a))). destruct (near64_ok _ Ha) as [F E]. split; [exact F|]. rewrite E.
    eapply Rle_trans; [apply rnd_err|]. apply Rplus_le_compat; [apply Rmult_le_compat_r; [apply Rabs_pos|]|]; [unfold u64|unfold eta64]; apply bpow_le; lia.
Qed.

(** An aircraft between 200 and 400 ft/s, flight path angle and roll within one radian: 100 steps of a tenth of a second. *)
Lemma fly3_num_ex : fly3_error 5101 (1 / 10) 400 100 200 (1 / 2) 100 <= 1 / 1000.
Proof.
  unfold fly3_error, step_error3, turn_lip, turn_max. replace (INR 100) with 100 by (simpl; lra).
  assert (P7 : bpow radix2 (-699) <= / 10 ^ 15).
  { apply (Rle_trans _ (bpow radix2 (-50))); [apply bpow_le; lia|simpl; lra]. }
  replace (32.17 / (200 * (1 / 2))) with (0.3217) by lra. replace (/ 200 + / (1 / 2)) with (2.005) by lra.
  simpl (bpow radix2 (-47)). simpl (10 ^ 15) in P7. lra.
Qed.
Lemma fl_f32s (z : Z) (r : R) s m e : B2SF (f64_f32 (fl z 1)) = SpecFloat.S754_finite s m e -> F2R (Float radix2 (cond_Zopp s (Zpos m)) e) = r ->
  is_finite (f64_f32 (fl z 1)) = true /\ B2R (f64_f32 (fl z 1)) = r.
Proof.
  intros H <-. split; [|rewrite (B2R_of _ _ _ _ H); reflexivity].
  destruct (f64_f32 (fl z 1)); cbn in H; try discriminate. reflexivity.
Qed.
Ltac flw := first [eapply fl_f32s | eapply fl_val]; [vm_compute; reflexivity|unfold F2R; cbn; lra].
Lemma cos_half : 1 / 2 <= cos (1 + 1 / 1024).
Proof.
  rewrite <- cos_PI3.
  assert (3.1415 < PI).
  { pose proof pi64_near as Q. pose proof pi64_val as V. apply Rabs_le_inv in Q. pose proof u64_pos as [_ U]. simpl (bpow radix2 (-48)) in V. lra. }
  pose proof PI_4. apply cos_decr_1; lra.
Qed.
Lemma flies3_mono E E' s p : E <= E' -> flies3 E s p -> flies3 E' s p.
Proof.
  intros Le. unfold flies3. destruct s as [|x [|y [|z [|hd [|ga [|ro [|v [|? ?]]]]]]]]; try tauto.
  intros (F & A & B & D & (k & K) & G). split; [exact F|]. split; [lra|]. split; [lra|]. split; [lra|]. split; [exists k; lra|]. split; [lra|]. split; lra.
Qed.
Lemma fly3_ex (lm : libm) (w : world f64) l : accurate lm -> accurate_tan lm -> length l = 100%nat -> Forall (fly3_ok (1 / 10)) l ->
  let a := dubins3d_aircraft (N := F64 lm) 0 "Euler" (fl 200 1) (fl 400 1) (fl (-1) 1) (fl 1 1) (fl (-1) 1) (fl 1 1)
    (fl (-1) 1) (fl 1 1) (fl (-1) 1) (fl 1 1) (fl (-100) 1) (fl 100 1) (fl 0 1) (fl 0 1) (fl 0 1) (fl 0 1) (fl 0 1) (fl 0 1) (fl 200 1) in
  exists e s, run (N := F64 lm) w (set_state a (A1 [fl 1000 1; fl 500 1; fl (-500) 1; fl 3 1; fl 1 1; fl (-1) 1; fl 250 1])) (map fly3_act l) = Ok e /\ e_state e = A1 s /\
    flies3 (1 / 1000) s (fly3 {| g_lo := -1; g_hi := 1; b_lo := -1; b_hi := 1; s_lo := 200; s_hi := 400;
        gr_lo := -1; gr_hi := 1; br_lo := -1; br_hi := 1; ac_lo := -100; ac_hi := 100 |}
      {| qx := 1000; qy := 500; qz := -500; qh := 3; qg := 1; qr := -1; qv := 250 |} (map fly3_num l)).
Proof.
  intros Ac At Ll Fo. cbv zeta.
  assert (N1 : is_finite (f64_f32 (fl 200 1)) = true /\ B2R (f64_f32 (fl 200 1)) = 200) by flw.
  assert (N2 : is_finite (f64_f32 (fl 400 1)) = true /\ B2R (f64_f32 (fl 400 1)) = 400) by flw.
  assert (N3 : is_finite (fl 1000 1) = true /\ B2R (fl 1000 1) = 1000) by flw.
  assert (N4 : is_finite (fl 500 1) = true /\ B2R (fl 500 1) = 500) by flw.
  assert (N5 : is_finite (fl 3 1) = true /\ B2R (fl 3 1) = 3) by flw.
  assert (N6 : is_finite (fl 250 1) = true /\ B2R (fl 250 1) = 250) by flw.
  assert (N7 : is_finite (fl (-500) 1) = true /\ B2R (fl (-500) 1) = -500) by flw.
  assert (N8 : is_finite (f64_f32 (fl (-1) 1)) = true /\ B2R (f64_f32 (fl (-1) 1)) = -1) by flw.
  assert (N9 : is_finite (f64_f32 (fl 1 1)) = true /\ B2R (f64_f32 (fl 1 1)) = 1) by flw.
  assert (M1 : is_finite (fl (-1) 1) = true /\ B2R (fl (-1) 1) = -1) by flw.
  assert (M2 : is_finite (fl 1 1) = true /\ B2R (fl 1 1) = 1) by flw.
  assert (M3 : is_finite (fl (-100) 1) = true /\ B2R (fl (-100) 1) = -100) by flw.
  assert (M4 : is_finite (fl 100 1) = true /\ B2R (fl 100 1) = 100) by flw.
  assert (W : forall a r, is_finite a = true /\ B2R a = r -> Rabs r <= 1024 -> within 100 a).
  { intros a r [F <-] H. split; [exact F|]. eapply Rle_trans; [exact H|]. apply (bpow_le radix2 10). lia. }
  assert (T : forall k : R, k <= 2 ^ 20 -> k <= bpow radix2 99).
  { intros k H. eapply Rle_trans; [exact H|]. replace (2 ^ 20) with (bpow radix2 20) by (simpl; lra). apply bpow_le. lia. }
  assert (T' : bpow radix2 (-100) <= 1 / 2) by (apply (Rle_trans _ (bpow radix2 (-1))); [apply bpow_le; lia|simpl; lra]).
  pose proof fly3_num_ex as Er. rewrite <- Ll in Er.
  destruct (fly3_main lm w (fl 200 1) (fl 400 1) (fl (-1) 1) (fl 1 1) (fl (-1) 1) (fl 1 1)
      (fl (-1) 1) (fl 1 1) (fl (-1) 1) (fl 1 1) (fl (-100) 1) (fl 100 1) 0 5101 (1 / 10) 400 100 1 200 (1 / 2)
      (fl 0 1) (fl 0 1) (fl 0 1) (fl 0 1) (fl 0 1) (fl 0 1) (fl 200 1) (fl 1000 1) (fl 500 1) (fl (-500) 1) (fl 3 1) (fl 1 1) (fl (-1) 1) (fl 250 1) l) as (e & s & R & Es & Fs); auto using cos_half; try lia; try lra.
  - repeat (constructor; [tauto|]). constructor.
  - repeat (constructor; [tauto|]). constructor.
  - repeat (constructor; [eapply W; [eassumption|apply Rabs_le; lra]|]). constructor.
  - repeat (constructor; [first [rewrite (proj2 N1) | rewrite (proj2 N2) | rewrite (proj2 N6)]; lra|]). constructor.
  - repeat (constructor; [first [rewrite (proj2 N8) | rewrite (proj2 N9) | rewrite (proj2 M1) | rewrite (proj2 M2)]; apply Rabs_le; lra|]). constructor.
  - repeat (constructor; [first [rewrite (proj2 N8) | rewrite (proj2 N9) | rewrite (proj2 M1) | rewrite (proj2 M2)]; apply Rabs_le; lra|]). constructor.
  - repeat (constructor; [first [rewrite (proj2 M1) | rewrite (proj2 M2) | rewrite (proj2 M3) | rewrite (proj2 M4)]; apply Rabs_le; lra|]). constructor.
  - pose proof PI2_1. lra.
  - rewrite Ll. replace (INR 100) with 100 by (simpl; lra).
    repeat (constructor; [first [rewrite (proj2 N3) | rewrite (proj2 N4) | rewrite (proj2 N5) | rewrite (proj2 N7)]; unfold Rabs; destruct (Rcase_abs _); lra|]).
    constructor.
  - apply T. simpl. lra.
  - apply T. simpl. lra.
  - exists e, s. split; [exact R|]. split; [exact Es|]. cbv zeta in Fs. rewrite (proj2 N1), (proj2 N2), (proj2 N3), (proj2 N4), (proj2 N5), (proj2 N6),
      (proj2 N7), (proj2 N8), (proj2 N9), (proj2 M1), (proj2 M2), (proj2 M3), (proj2 M4) in Fs. eapply flies3_mono; [|exact Fs]. exact Er.
Qed.
Lemma fly3_ok_ex : Forall (fly3_ok (1 / 10)) (repeat (fl 1 16, (fl 2 1, fl (-7) 1, fl 5 1)) 100).
Proof.
  assert (M2 : is_finite (fl 1 16) = true /\ B2R (fl 1 16) = 1 / 16) by flw.
  apply Forall_forall. intros p Hp. apply repeat_spec in Hp. subst p. unfold fly3_ok, within. cbn [fst snd]. rewrite (proj2 M2), Rabs_pos_eq by lra.
  split; [split; [apply M2|apply (Rle_trans _ (bpow radix2 0)); [simpl; lra|apply bpow_le; lia]]|]. split; [lra|]. repeat split; vm_compute; reflexivity.
Qed.
