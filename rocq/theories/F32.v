(** The float32 cast of binary64 numbers. *)
From Coq Require Import ZArith Reals Bool Lra Lia Psatz.
From Flocq Require Import Core.Core Relative IEEE754.BinarySingleNaN.
From Verif Require Import Num Float64 F64Wrap F64Err.
Local Open Scope R_scope.

Notation fexp32 := (FLT_exp (-149) 24).
Definition fmt32 (x : R) : Prop := generic_format radix2 fexp32 x.
Definition rnd32 (x : R) : R := round radix2 fexp32 ZnearestE x.

Lemma signed_cond s m : signed s m = cond_Zopp s (Zpos m).
Proof. destruct s; reflexivity. Qed.
Lemma B2R_fmt32 (x : binary_float 24 128) : fmt32 (B2R x).
Proof. apply (generic_format_B2R 24 128). Qed.
Lemma fmt32_64 x : fmt32 x -> fmt64 x.
Proof.
  intros F. apply (generic_inclusion_mag radix2 fexp32); [|exact F]. intros _. unfold SpecFloat.fexp, SpecFloat.emin, FLT_exp. lia.
Qed.

Lemma to32 (z : f64) : is_finite z = true -> Rabs (rnd32 (B2R z)) < bpow radix2 128 ->
  is_finite (f64_to_f32 z) = true /\ B2R (f64_to_f32 z) = rnd32 (B2R z).
Proof.
  intros F L. destruct z as [s|s| |s m e He]; try discriminate.
  - cbn. split; [reflexivity|]. unfold rnd32. rewrite round_0; [reflexivity|apply valid_rnd_N].
  - cbn [f64_to_f32]. pose proof (binary_normalize_correct 24 128 _ _ mode_NE (signed s m) e s) as Q. cbv zeta in Q.
    rewrite signed_cond in *. change (F2R (Float radix2 (cond_Zopp s (Zpos m)) e)) with (B2R (B754_finite s m e He : f64)) in Q.
    change (round radix2 (SpecFloat.fexp 24 128) (round_mode mode_NE) (B2R (B754_finite s m e He : f64))) with (rnd32 (B2R (B754_finite s m e He : f64))) in Q.
    rewrite Rlt_bool_true in Q by exact L. destruct Q as (Q1 & Q2 & _). split; assumption.
Qed.
Lemma from32 (y : binary_float 24 128) : is_finite (f64_from_f32 y) = is_finite y /\ B2R (f64_from_f32 y) = B2R y.
Proof.
  destruct y as [s|s| |s m e He]; try (split; reflexivity).
  cbn [f64_from_f32]. pose proof (binary_normalize_correct 53 1024 _ _ mode_NE (signed s m) e s) as Q. cbv zeta in Q.
  rewrite signed_cond in *.
  change (F2R (Float radix2 (cond_Zopp s (Zpos m)) e)) with (B2R (B754_finite s m e He : binary_float 24 128)) in Q.
  rewrite rnd64_id in Q by (apply fmt32_64, B2R_fmt32).
  rewrite Rlt_bool_true in Q.
  - destruct Q as (Q1 & Q2 & _). split; assumption.
  - apply (Rlt_trans _ (bpow radix2 128)); [|apply bpow_lt; lia]. apply abs_B2R_lt_emax.
Qed.
Lemma f32_val (z : f64) : is_finite z = true -> Rabs (rnd32 (B2R z)) < bpow radix2 128 ->
  is_finite (f64_f32 z) = true /\ B2R (f64_f32 z) = rnd32 (B2R z).
Proof.
  intros F L. unfold f64_f32. destruct (to32 z F L) as [A B]. destruct (from32 (f64_to_f32 z)) as [C D]. rewrite C, D. auto.
Qed.
Lemma f32_fmt (z : f64) : fmt32 (B2R (f64_f32 z)).
Proof. unfold f64_f32. rewrite (proj2 (from32 _)). apply B2R_fmt32. Qed.

Lemma rnd32_err x : Rabs (rnd32 x - x) <= bpow radix2 (-24) * Rabs x + bpow radix2 (-150).
Proof.
  destruct (error_N_FLT radix2 (-149) 24 eq_refl (fun z => negb (Z.even z)) x) as (e & et & H1 & H2 & _ & H).
  unfold rnd32. rewrite H. replace (x * (1 + e) + et - x) with (e * x + et) by ring.
  eapply Rle_trans; [apply Rabs_triang|]. rewrite Rabs_mult. apply Rplus_le_compat.
  - apply Rmult_le_compat_r; [apply Rabs_pos|]. eapply Rle_trans; [exact H1|].
    change (bpow radix2 (-24)) with (bpow radix2 (-1 + (- (24) + 1))). rewrite (bpow_plus _ (-1)). apply Rle_refl.
  - eapply Rle_trans; [exact H2|].
    change (bpow radix2 (-150)) with (bpow radix2 (-1 + -149)). rewrite (bpow_plus _ (-1)). apply Rle_refl.
Qed.
Lemma f32_err (z : f64) : is_finite z = true -> Rabs (B2R z) <= bpow radix2 101 ->
  is_finite (f64_f32 z) = true /\ Rabs (B2R (f64_f32 z) - B2R z) <= bpow radix2 (-24) * Rabs (B2R z) + bpow radix2 (-150).
Proof.
  intros F L. pose proof (rnd32_err (B2R z)) as E.
  assert (S : Rabs (rnd32 (B2R z)) < bpow radix2 128).
  { replace (rnd32 (B2R z)) with ((rnd32 (B2R z) - B2R z) + B2R z) by ring. eapply Rle_lt_trans; [apply Rabs_triang|].
    assert (bpow radix2 (-24) * Rabs (B2R z) <= bpow radix2 77).
    { change (bpow radix2 77) with (bpow radix2 (-24 + 101)). rewrite bpow_plus. apply Rmult_le_compat_l; [apply bpow_ge_0|exact L]. }
    assert (bpow radix2 77 <= bpow radix2 101) by (apply bpow_le; lia). assert (bpow radix2 (-150) <= bpow radix2 101) by (apply bpow_le; lia).
    assert (4 * bpow radix2 101 < bpow radix2 128).
    { replace (4 * bpow radix2 101) with (bpow radix2 103) by (change 103%Z with (2 + 101)%Z; rewrite bpow_plus; reflexivity). apply bpow_lt. lia. }
    pose proof (bpow_gt_0 radix2 101). lra. }
  destruct (f32_val z F S) as [A B]. rewrite B. auto.
Qed.
(** A float32 number of at least 2^7 is a multiple of 2^-16. *)
Lemma fmt32_grid x e : fmt32 x -> (-149 <= e)%Z -> bpow radix2 (e + 23) <= Rabs x -> exists k : Z, x = IZR k * bpow radix2 e.
Proof.
  intros F He B. unfold fmt32, generic_format in F. unfold scaled_mantissa, cexp in F. set (m := Ztrunc _) in F.
  assert (M : (e + 24 <= mag radix2 x)%Z).
  { apply mag_ge_bpow. replace (e + 24 - 1)%Z with (e + 23)%Z by lia. exact B. }
  set (c := fexp32 (mag radix2 x)) in F. assert (C : (e <= c)%Z) by (unfold c, FLT_exp; lia).
  exists (m * 2 ^ (c - e))%Z. rewrite F at 1. unfold F2R. cbn [Fnum Fexp]. rewrite mult_IZR, (IZR_Zpower radix2) by lia.
  rewrite Rmult_assoc, <- bpow_plus. do 2 f_equal. lia.
Qed.
