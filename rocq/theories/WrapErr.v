(** Angle wrapping in binary64 against exact wrapping (C113). *)
From Coq Require Import ZArith Reals Bool Lra Lia Psatz Machin.
From Flocq Require Import Core.Core IEEE754.BinarySingleNaN.
From Verif Require Import PyBase Num Arr BaseModel Float64 XReal NumOrdLemmas F64Wrap F64Err.
Local Open Scope R_scope.

Lemma pi_near : Rabs (884279719003555 / 2 ^ 48 - PI) <= / 2 ^ 52.
Proof.
  destruct (PI_2_3_7_ineq 9) as [A B]. unfold tg_alt, PI_2_3_7_tg, Ratan_seq in A, B.
  cbn [sum_f_R0 Nat.mul Nat.add INR pow] in A, B. apply Rabs_le. split; lra.
Qed.

Lemma pi64_near : Rabs (pi64 - PI) <= 2 * u64.
Proof.
  rewrite pi64_val. eapply Rle_trans; [|eapply Rle_trans; [exact pi_near|]].
  - right. f_equal. f_equal. unfold Rdiv. f_equal. simpl. lra.
  - unfold u64. simpl. lra.
Qed.

(** The remainder is the dividend less a whole number of divisors, up to one rounding. *)
Lemma mod64_turn (a b : f64) : is_finite a = true -> is_finite b = true -> 0 < B2R b ->
  exists k : Z, Rabs (B2R (f64_mod a b) - (B2R a - IZR k * B2R b)) <= u64 * B2R b + eta64.
Proof.
  intros Fa Fb Pb. destruct (fmod64 a b Fa Fb Pb) as (F & k & Ek & Lt & _).
  pose proof u64_pos as U. pose proof eta64_pos as Et.
  assert (Z0 : 0 <= u64 * B2R b) by nra.
  assert (Sb : Bsign b = false).
  { destruct b as [s|s| |s m e H]; try discriminate; simpl in *; [lra|].
    destruct s; [|reflexivity]. exfalso.
    pose proof (F2R_lt_0 radix2 (Float radix2 (Zneg m) e) eq_refl). simpl in *. lra. }
  unfold f64_mod. set (m := f64_fmod a b) in *.
  destruct m as [s|s| |s mm me Hm] eqn:Em; try discriminate.
  - exists k. rewrite Sb. simpl (B2R (B754_zero _)). simpl (B2R (B754_zero _)) in Ek. rewrite <- Ek, Rminus_eq_0, Rabs_R0. lra.
  - rewrite Sb. simpl (Bsign (B754_finite s mm me Hm)). destruct s; simpl (Bool.eqb _ _); cbv iota.
    + assert (Neg : B2R (B754_finite true mm me Hm) < 0).
      { pose proof (F2R_lt_0 radix2 (Float radix2 (Zneg mm) me) eq_refl). exact H. }
      apply Rabs_lt_inv in Lt.
      assert (Bd : 0 <= rnd64 (B2R (B754_finite true mm me Hm) + B2R b) <= B2R b).
      { apply rnd64_bounds; [apply generic_format_0 | apply B2R_fmt | lra]. }
      destruct (plus64 (B754_finite true mm me Hm) b) as [E1 E2]; [reflexivity | exact Fb | |].
      * rewrite Rabs_pos_eq by apply Bd. eapply Rle_lt_trans; [apply Bd|].
        eapply Rle_lt_trans; [apply Rle_abs|]. eapply Rle_lt_trans; [apply max64_ub|apply max64_lt].
      * exists (k - 1)%Z. rewrite E1, minus_IZR.
        replace (B2R a - (IZR k - 1) * B2R b) with (B2R (B754_finite true mm me Hm) + B2R b) by lra.
        eapply Rle_trans; [apply rnd_err|]. rewrite Rabs_pos_eq by lra. nra.
    + exists k. rewrite <- Ek, Rminus_eq_0, Rabs_R0. lra.
Qed.

Section W.
  Variable lm : libm.
  Local Hint Extern 0 (Num f64) => exact (F64 lm) : typeclass_instances.

  (** Wrapping subtracts a whole number of exact turns, up to an error relative to the angle. *)
  Lemma wrap64_turn (s : f64) : is_finite s = true ->
    exists k : Z, Rabs (B2R (wrap1 n0 s) - (B2R s - 2 * IZR k * PI)) <= bpow radix2 (-51) * (Rabs (B2R s) + 8).
  Proof.
    intros Fs. pose proof pi64_bounds as PB. pose proof bpow_1024_gt as BG.
    destruct (plus64 s f64_pi Fs pi_finite) as [E1 F1].
    { eapply Rle_lt_trans; [|apply max64_lt]. apply rnd64_small_add; [apply max64_ub|].
      fold pi64. rewrite Rabs_pos_eq by lra. apply Rlt_trans with (bpow radix2 5); [simpl; lra|].
      apply bpow_lt. lia. }
    fold pi64 in E1.
    destruct (mod64 (Bplus mode_NE s f64_pi) twopi64 F1 twopi_finite) as (F2 & R2 & _ & _).
    { rewrite twopi64_val. lra. }
    destruct (mod64_turn (Bplus mode_NE s f64_pi) twopi64 F1 twopi_finite) as (k & K).
    { rewrite twopi64_val. lra. }
    rewrite twopi64_val in R2, K. rewrite E1 in K.
    set (m := f64_mod (Bplus mode_NE s f64_pi) twopi64) in *.
    assert (B3 : - pi64 <= rnd64 (B2R m - pi64) <= pi64).
    { apply rnd64_bounds; [apply fmt64_opp, B2R_fmt | apply B2R_fmt | lra]. }
    destruct (minus64 m f64_pi F2 pi_finite) as [E3 F3].
    { fold pi64. apply Rle_lt_trans with pi64; [apply Rabs_le; lra|lra]. }
    fold pi64 in E3.
    assert (W : wrap1 n0 s = Bplus mode_NE (Bminus mode_NE m f64_pi) (B754_zero false)).
    { unfold wrap1. rewrite twopi_num, n0_num. reflexivity. }
    assert (Wv : B2R (wrap1 n0 s) = rnd64 (B2R m - pi64)).
    { rewrite W. destruct (plus64 (Bminus mode_NE m f64_pi) (B754_zero false) F3 eq_refl) as [E4 F4].
      { simpl (B2R (B754_zero false)). rewrite Rplus_0_r, rnd64_id by apply B2R_fmt.
        rewrite E3. apply Rle_lt_trans with pi64; [apply Rabs_le; lra|lra]. }
      rewrite E4. simpl (B2R (B754_zero false)).
      rewrite Rplus_0_r, rnd64_id by apply B2R_fmt. exact E3. }
    exists k. rewrite Wv. clear W Wv E3 F3 B3 E1 F1 F2.
    pose proof (rnd_err (B2R m - pi64)) as H1. pose proof (rnd_err (B2R s + pi64)) as H2.
    pose proof pi64_near as H3. pose proof u64_pos as [U0 U1].
    assert (Et : 0 < eta64 <= u64 * / 1000).
    { split; [apply eta64_pos|]. apply (Rle_trans _ (u64 * bpow radix2 (-10))).
      - unfold eta64, u64. rewrite <- bpow_plus. apply bpow_le. lia.
      - apply Rmult_le_compat_l; [lra|]. simpl. lra. }
    replace (bpow radix2 (-51)) with (4 * u64).
    2:{ unfold u64. change (-51)%Z with (2 + -53)%Z. rewrite bpow_plus. reflexivity. }
    set (v := rnd64 (B2R m - pi64)) in *. set (c := rnd64 (B2R s + pi64)) in *.
    set (x := B2R s) in *. set (y := B2R m) in *. set (p := pi64) in *. set (q := IZR k) in *.
    set (u := u64) in *. set (t := eta64) in *. clearbody v c x y p q u t.
    assert (A1 : Rabs (y - p) <= 4) by (apply Rabs_le; lra).
    assert (A2 : Rabs (x + p) <= Rabs x + 4) by (eapply Rle_trans; [apply Rabs_triang|]; rewrite (Rabs_pos_eq p); lra).
    assert (A0 : 0 <= Rabs x) by apply Rabs_pos.
    assert (X4 : u * Rabs (x + p) <= u * (Rabs x + 4)) by (apply Rmult_le_compat_l; lra).
    assert (Y4 : u * Rabs (y - p) <= u * 4) by (apply Rmult_le_compat_l; lra).
    assert (P8 : u * (2 * p) <= u * 8) by (apply Rmult_le_compat_l; lra).
    assert (Sm : u * (Rabs x + 4) <= / 1000000 * (Rabs x + 4)) by (apply Rmult_le_compat_r; lra).
    assert (C1 : Rabs (v - (y - p)) <= 4 * u + t) by lra.
    assert (C2 : Rabs (c - (x + p)) <= u * (Rabs x + 4) + t) by lra.
    assert (C3 : Rabs (y - (c - q * (2 * p))) <= 8 * u + t) by lra.
    assert (Q : Rabs q <= Rabs x / 5 + 21 / 10).
    { assert (Rabs c <= Rabs (c - (x + p)) + Rabs (x + p)).
      { replace c with ((c - (x + p)) + (x + p)) at 1 by ring. apply Rabs_triang. }
      assert (Rabs (q * (2 * p)) <= Rabs (y - (c - q * (2 * p))) + (Rabs c + Rabs y)).
      { replace (q * (2 * p)) with ((y - (c - q * (2 * p))) + (c - y)) at 1 by ring.
        eapply Rle_trans; [apply Rabs_triang|]. apply Rplus_le_compat_l.
        eapply Rle_trans; [apply Rabs_triang|]. rewrite Rabs_Ropp. apply Rle_refl. }
      rewrite Rabs_mult, (Rabs_pos_eq (2 * p)) in H0 by lra. rewrite (Rabs_pos_eq y) in H0 by lra.
      assert (Rabs q * 6 <= Rabs q * (2 * p)) by (apply Rmult_le_compat_l; [apply Rabs_pos|lra]). lra. }
    assert (C4 : Rabs (2 * q * (p - PI)) <= 4 * (u * Rabs q)).
    { rewrite !Rabs_mult, (Rabs_pos_eq 2) by lra.
      assert (Rabs q * Rabs (p - PI) <= Rabs q * (2 * u)) by (apply Rmult_le_compat_l; [apply Rabs_pos|lra]). lra. }
    assert (C5 : u * Rabs q <= u * (Rabs x / 5 + 21 / 10)) by (apply Rmult_le_compat_l; lra).
    assert (0 <= u * Rabs x) by (apply Rmult_le_pos; lra).
    replace (v - (x - 2 * q * PI)) with ((v - (y - p)) + ((y - (c - q * (2 * p))) + ((c - (x + p)) + - (2 * q * (p - PI))))) by ring.
    eapply Rle_trans; [apply Rabs_triang|]. eapply Rle_trans; [apply Rplus_le_compat_l, Rabs_triang|].
    eapply Rle_trans; [apply Rplus_le_compat_l, Rplus_le_compat_l, Rabs_triang|].
    rewrite Rabs_Ropp. lra.
  Qed.
End W.
