(** Angle wrapping in binary64: range, and preservation of limits that wrapping fixes. *)
From Coq Require Import ZArith Reals Bool Lra Lia Psatz.
From Flocq Require Import Core.Core IEEE754.BinarySingleNaN.
From Verif Require Import PyBase Num Arr BaseModel Float64 XReal NumOrdLemmas.
Local Open Scope R_scope.

Notation fexp64 := (SpecFloat.fexp 53 1024).
Notation rnd64 := (round radix2 fexp64 (round_mode mode_NE)).
Notation fmt64 := (generic_format radix2 fexp64).

Lemma f64_eq (x y : f64) : B2SF x = B2SF y -> x = y.
Proof. apply B2SF_inj. Qed.

Lemma B2R_fmt (x : f64) : fmt64 (B2R x).
Proof. apply generic_format_B2R. Qed.

Lemma rnd64_id x : fmt64 x -> rnd64 x = x.
Proof. intros H. apply round_generic; [apply valid_rnd_round_mode | exact H]. Qed.

Global Instance fexp64_valid : Valid_exp fexp64.
Proof. apply fexp_correct. reflexivity. Qed.

Lemma rnd64_le x y : x <= y -> rnd64 x <= rnd64 y.
Proof. intros H. apply round_le; [typeclasses eauto | apply valid_rnd_round_mode | exact H]. Qed.

Lemma rnd64_bounds lo hi x : fmt64 lo -> fmt64 hi -> lo <= x <= hi -> lo <= rnd64 x <= hi.
Proof.
  intros A B [C D]. split.
  - rewrite <- (rnd64_id lo A). apply rnd64_le, C.
  - rewrite <- (rnd64_id hi B). apply rnd64_le, D.
Qed.

Lemma fmt64_opp x : fmt64 x -> fmt64 (- x).
Proof. apply generic_format_opp. Qed.

Lemma plus64 (x y : f64) : is_finite x = true -> is_finite y = true ->
  Rabs (rnd64 (B2R x + B2R y)) < bpow radix2 1024 ->
  B2R (Bplus mode_NE x y) = rnd64 (B2R x + B2R y) /\ is_finite (Bplus mode_NE x y) = true.
Proof.
  intros Fx Fy H. pose proof (Bplus_correct 53 1024 _ _ mode_NE x y Fx Fy) as Q.
  rewrite Rlt_bool_true in Q by exact H. tauto.
Qed.

Lemma minus64 (x y : f64) : is_finite x = true -> is_finite y = true ->
  Rabs (rnd64 (B2R x - B2R y)) < bpow radix2 1024 ->
  B2R (Bminus mode_NE x y) = rnd64 (B2R x - B2R y) /\ is_finite (Bminus mode_NE x y) = true.
Proof.
  intros Fx Fy H. pose proof (Bminus_correct 53 1024 _ _ mode_NE x y Fx Fy) as Q.
  rewrite Rlt_bool_true in Q by exact H. tauto.
Qed.

(** The largest finite binary64 number. *)
Definition max64 : R := (2 ^ 53 - 1) * bpow radix2 971.

Lemma max64_ub (x : f64) : Rabs (B2R x) <= max64.
Proof.
  pose proof (abs_B2R_le_emax_minus_prec 53 1024 _ x) as H.
  unfold max64. replace ((2 ^ 53 - 1) * bpow radix2 971) with (bpow radix2 1024 - bpow radix2 971).
  - exact H.
  - replace 1024%Z with (53 + 971)%Z by reflexivity. rewrite bpow_plus.
    replace (bpow radix2 53) with (2 ^ 53) by (simpl; lra). ring.
Qed.

Lemma max64_fmt : fmt64 max64.
Proof.
  replace max64 with (F2R (Float radix2 (2 ^ 53 - 1) 971)).
  - apply generic_format_FLT. eapply FLT_spec; [reflexivity| |]; cbn; lia.
  - unfold F2R, max64. simpl. lra.
Qed.

Lemma max64_lt : max64 < bpow radix2 1024.
Proof.
  unfold max64. replace 1024%Z with (53 + 971)%Z by reflexivity. rewrite bpow_plus.
  pose proof (bpow_gt_0 radix2 971). replace (bpow radix2 53) with (2 ^ 53) by (simpl; lra). nra.
Qed.

Lemma max64_ulp : ulp radix2 fexp64 max64 = bpow radix2 971.
Proof.
  rewrite ulp_neq_0.
  - f_equal. unfold cexp. rewrite (mag_unique radix2 max64 1024); [reflexivity|].
    rewrite Rabs_pos_eq.
    + split; [|apply max64_lt]. unfold max64.
      replace (1024 - 1)%Z with (52 + 971)%Z by reflexivity. rewrite bpow_plus.
      pose proof (bpow_gt_0 radix2 971). replace (bpow radix2 52) with (2 ^ 52) by (simpl; lra). nra.
    + unfold max64. pose proof (bpow_gt_0 radix2 971). nra.
  - unfold max64. pose proof (bpow_gt_0 radix2 971). nra.
Qed.

(** Adding a small number to a finite float does not overflow. *)
Lemma rnd64_small_add x y : Rabs x <= max64 -> Rabs y < bpow radix2 970 ->
  Rabs (rnd64 (x + y)) <= max64.
Proof.
  intros Hx Hy.
  assert (Up : forall z, z < max64 + bpow radix2 970 -> rnd64 z <= max64).
  { intros z Hz. apply round_N_le_midp; [typeclasses eauto | apply max64_fmt|].
    rewrite succ_eq_pos.
    - rewrite max64_ulp. replace (bpow radix2 971) with (2 * bpow radix2 970).
      + lra.
      + replace 971%Z with (1 + 970)%Z by reflexivity. rewrite bpow_plus. simpl (bpow radix2 1). lra.
    - unfold max64. pose proof (bpow_gt_0 radix2 971). nra. }
  apply Rabs_le. apply Rabs_le_inv in Hx. apply Rabs_lt_inv in Hy. split.
  - assert (E : rnd64 (x + y) = - rnd64 (- (x + y))).
    { simpl. rewrite round_NE_opp. lra. }
    rewrite E. assert (rnd64 (- (x + y)) <= max64) by (apply Up; lra). lra.
  - apply Up. lra.
Qed.

Lemma fmt64_F2R m e : (Z.abs m < 2 ^ 53)%Z -> (-1074 <= e)%Z -> fmt64 (F2R (Float radix2 m e)).
Proof.
  intros H1 H2. apply generic_format_FLT. eapply FLT_spec; [reflexivity| exact H1 |].
  simpl. unfold SpecFloat.emin. lia.
Qed.

Lemma bounded64 m e : SpecFloat.bounded 53 1024 m e = true ->
  (Zpos m < 2 ^ 53)%Z /\ (-1074 <= e)%Z.
Proof.
  intros H. unfold SpecFloat.bounded in H. apply andb_prop in H. destruct H as [H _].
  unfold SpecFloat.canonical_mantissa in H. apply Zeq_bool_eq in H.
  rewrite Digits.Zpos_digits2_pos in H. unfold SpecFloat.fexp, SpecFloat.emin in H.
  assert (D : (Digits.Zdigits radix2 (Zpos m) <= 53)%Z) by lia.
  split; [|lia].
  pose proof (Digits.Zdigits_correct radix2 (Zpos m)) as [_ Q]. rewrite Z.abs_eq in Q by lia.
  eapply Z.lt_le_trans; [exact Q|]. apply (Zpower_le radix2), D.
Qed.

Lemma F2R_shift m e e' : (e <= e')%Z -> F2R (Float radix2 (m * 2 ^ (e' - e)) e) = F2R (Float radix2 m e').
Proof. intros H. symmetry. apply F2R_change_exp. exact H. Qed.

(** fmod of finite numbers by a positive finite number is exact, smaller than the
    divisor, and has the sign of the dividend. *)
Lemma fmod64 (a b : f64) : is_finite a = true -> is_finite b = true -> 0 < B2R b ->
  is_finite (f64_fmod a b) = true /\
  exists k : Z, B2R (f64_fmod a b) = B2R a - IZR k * B2R b /\
    Rabs (B2R (f64_fmod a b)) < B2R b /\
    (0 <= B2R a -> 0 <= B2R (f64_fmod a b)) /\
    (Rabs (B2R a) < B2R b -> B2R (f64_fmod a b) = B2R a).
Proof.
  destruct a as [sa|sa| |sa ma ea Ha]; try discriminate;
  destruct b as [sb|sb| |sb mb eb Hb]; try discriminate; intros _ _ Pb.
  - simpl in Pb. lra.
  - simpl f64_fmod. split; [reflexivity|]. exists 0%Z. rewrite Rmult_0_l. simpl (B2R (B754_zero sa)).
    rewrite Rabs_R0. split; [lra|]. split; [exact Pb|]. split; [intros; lra|reflexivity].
  - simpl in Pb. lra.
  - assert (sb = false) as ->.
    { destruct sb; [|reflexivity]. exfalso. simpl in Pb.
      pose proof (F2R_lt_0 radix2 (Float radix2 (Zneg mb) eb) eq_refl). simpl in *. lra. }
    cbn [f64_fmod]. set (e := Z.min ea eb).
    set (A := (signed sa ma * 2 ^ (ea - e))%Z). set (B := (Zpos mb * 2 ^ (eb - e))%Z).
    destruct (bounded64 _ _ Ha) as [Ma Ea]. destruct (bounded64 _ _ Hb) as [Mb Eb].
    assert (PB : (0 < B)%Z) by (apply Z.mul_pos_pos; [lia|apply Z.pow_pos_nonneg; lia]).
    assert (Sa : (Z.abs (signed sa ma) = Zpos ma)%Z) by (destruct sa; reflexivity).
    assert (BA : B2R (B754_finite sa ma ea Ha) = F2R (Float radix2 A e)).
    { unfold A. rewrite F2R_shift by lia. destruct sa; reflexivity. }
    assert (BB : B2R (B754_finite false mb eb Hb) = F2R (Float radix2 B e)).
    { unfold B. rewrite F2R_shift by lia. reflexivity. }
    assert (R1 : (Z.abs (Z.rem A B) < B)%Z) by (pose proof (Z.rem_bound_abs A B); lia).
    assert (R2 : (Z.abs (Z.rem A B) <= Z.abs A)%Z).
    { rewrite <- Z.rem_abs by lia. pose proof (Z.rem_le (Z.abs A) (Z.abs B)). lia. }
    assert (R3 : (Z.abs (Z.rem A B) < 2 ^ 53)%Z).
    { destruct (Z.min_spec ea eb) as [[_ Q]|[_ Q]]; fold e in Q.
      - eapply Z.le_lt_trans; [exact R2|]. unfold A. rewrite Q, Z.sub_diag, Z.mul_1_r. lia.
      - eapply Z.lt_trans; [exact R1|]. unfold B. rewrite Q, Z.sub_diag, Z.mul_1_r. lia. }
    assert (Ee : (-1074 <= e)%Z) by lia.
    pose proof (fmt64_F2R _ _ R3 Ee) as G.
    pose proof (binary_normalize_correct 53 1024 _ _ mode_NE (Z.rem A B) e sa) as Q.
    cbv zeta in Q. rewrite (rnd64_id _ G) in Q.
    assert (Lt : Rabs (F2R (Float radix2 (Z.rem A B) e)) < F2R (Float radix2 B e)).
    { rewrite <- F2R_Zabs. apply F2R_lt. exact R1. }
    rewrite Rlt_bool_true in Q.
    2:{ eapply Rlt_trans; [exact Lt|]. rewrite <- BB.
        eapply Rle_lt_trans; [apply Rle_abs|]. eapply Rle_lt_trans; [apply max64_ub|apply max64_lt]. }
    destruct Q as (Q1 & Q2 & _). split; [exact Q2|]. exists (Z.quot A B).
    rewrite Q1, BA, BB.
    assert (E : (A = B * Z.quot A B + Z.rem A B)%Z) by (apply Z.quot_rem'; lia).
    split; [|split; [exact Lt|split]].
    + unfold F2R; simpl. rewrite E at 2. rewrite plus_IZR, mult_IZR. ring.
    + intros PA. apply F2R_ge_0. simpl. apply Z.rem_nonneg; [lia|].
      apply (F2R_ge_0_reg radix2 A e) in PA || (apply ge_0_F2R in PA); exact PA.
    + rewrite <- F2R_Zabs. intros L. apply lt_F2R in L.
      assert (Z.quot A B = 0)%Z.
      { apply Z.quot_small_iff; lia. }
      f_equal. f_equal. lia.
Qed.

(** npy_remainder by a positive number lies in [0, b]. *)
Lemma mod64 (a b : f64) : is_finite a = true -> is_finite b = true -> 0 < B2R b ->
  is_finite (f64_mod a b) = true /\ 0 <= B2R (f64_mod a b) <= B2R b /\
  (0 <= B2R a < B2R b -> B2R (f64_mod a b) = B2R a) /\
  (B2R a = B2R b -> B2R (f64_mod a b) = 0).
Proof.
  intros Fa Fb Pb. destruct (fmod64 a b Fa Fb Pb) as (F & k & Ek & Lt & Pos & Small).
  unfold f64_mod.
  assert (Zero : B2R a = B2R b -> B2R (f64_fmod a b) = 0).
  { intros E. rewrite E in Ek. apply Rabs_lt_inv in Lt. rewrite Ek in Lt.
    assert (K : (k = 1)%Z).
    { assert (IZR 0 < IZR k) by (apply Rmult_lt_reg_r with (B2R b); lra).
      assert (IZR k < IZR 2) by (apply Rmult_lt_reg_r with (B2R b); lra).
      apply lt_IZR in H, H0. lia. }
    rewrite Ek, K. lra. }
  assert (Sb : Bsign b = false).
  { destruct b as [s|s| |s m e H]; try discriminate; simpl in *; [lra|].
    destruct s; [|reflexivity]. exfalso.
    pose proof (F2R_lt_0 radix2 (Float radix2 (Zneg m) e) eq_refl). simpl in *. lra. }
  set (m := f64_fmod a b) in *.
  destruct m as [s|s| |s mm me Hm] eqn:Em; try discriminate.
  - rewrite Sb. simpl (B2R (B754_zero _)). simpl (B2R (B754_zero _)) in Small, Lt.
    split; [reflexivity|]. split; [lra|]. split; [|reflexivity].
    intros [A B]. rewrite <- Small; [reflexivity|].
    rewrite Rabs_pos_eq by lra. lra.
  - rewrite Sb. simpl (Bsign (B754_finite s mm me Hm)).
    destruct s; simpl (Bool.eqb _ _); cbv iota.
    + assert (Neg : B2R (B754_finite true mm me Hm) < 0).
      { pose proof (F2R_lt_0 radix2 (Float radix2 (Zneg mm) me) eq_refl). exact H. }
      apply Rabs_lt_inv in Lt.
      assert (Bd : 0 <= rnd64 (B2R (B754_finite true mm me Hm) + B2R b) <= B2R b).
      { apply rnd64_bounds; [apply generic_format_0 | apply B2R_fmt | lra]. }
      destruct (plus64 (B754_finite true mm me Hm) b) as [E1 E2]; [reflexivity | exact Fb | |].
      * rewrite Rabs_pos_eq by apply Bd. eapply Rle_lt_trans; [apply Bd|].
        eapply Rle_lt_trans; [apply Rle_abs|]. eapply Rle_lt_trans; [apply max64_ub|apply max64_lt].
      * split; [exact E2|]. split; [rewrite E1; exact Bd|]. split; [intros [A _]; apply Pos in A; lra|].
        intros A. apply Zero in A. lra.
    + assert (P : 0 < B2R (B754_finite false mm me Hm)).
      { pose proof (F2R_gt_0 radix2 (Float radix2 (Zpos mm) me) eq_refl). exact H. }
      rewrite Rabs_pos_eq in Lt by lra. split; [reflexivity|]. split; [lra|].
      split; [intros [A B]; apply Small; rewrite Rabs_pos_eq; lra|].
      intros A. apply Zero in A. lra.
Qed.

Definition pi64 : R := B2R f64_pi.
Definition twopi64 : f64 := f64_of 884279719003555 (-47).

Lemma pi64_val : pi64 = 884279719003555 * bpow radix2 (-48).
Proof.
  unfold pi64. pose proof (binary_normalize_correct 53 1024 _ _ mode_NE 884279719003555 (-48) false) as Q.
  cbv zeta in Q. rewrite rnd64_id in Q by (apply fmt64_F2R; lia).
  rewrite Rlt_bool_true in Q; [apply Q|].
  rewrite <- F2R_Zabs. unfold F2R; simpl. lra.
Qed.

Lemma twopi64_val : B2R twopi64 = 2 * pi64.
Proof.
  rewrite pi64_val. unfold twopi64.
  pose proof (binary_normalize_correct 53 1024 _ _ mode_NE 884279719003555 (-47) false) as Q.
  cbv zeta in Q. rewrite rnd64_id in Q by (apply fmt64_F2R; lia).
  rewrite Rlt_bool_true in Q.
  - destruct Q as [Q _]. unfold f64_of. rewrite Q. unfold F2R; simpl. lra.
  - rewrite <- F2R_Zabs. unfold F2R; simpl. lra.
Qed.

Lemma pi64_bounds : 3 < pi64 < 4.
Proof. rewrite pi64_val. simpl. lra. Qed.

Lemma bpow_1024_gt : 16 < bpow radix2 1024.
Proof.
  apply Rlt_le_trans with (bpow radix2 5); [simpl; lra|]. apply bpow_le. lia.
Qed.

Section W.
  Variable lm : libm.
  Local Hint Extern 0 (Num f64) => exact (F64 lm) : typeclass_instances.

  Lemma twopi_num : @nmul f64 (F64 lm) (nZ 2) npi = twopi64.
  Proof. apply f64_eq. vm_compute. reflexivity. Qed.

  Lemma n0_num : @n0 f64 (F64 lm) = B754_zero false.
  Proof. apply f64_eq. vm_compute. reflexivity. Qed.

  Lemma pi_finite : is_finite f64_pi = true.
  Proof. vm_compute. reflexivity. Qed.
  Lemma twopi_finite : is_finite twopi64 = true.
  Proof. vm_compute. reflexivity. Qed.

  (** All the intermediate values of wrapping one finite angle around 0. *)
  Lemma wrap64_steps (s : f64) : is_finite s = true ->
    exists m : f64, is_finite m = true /\ 0 <= B2R m <= 2 * pi64 /\
      (0 <= rnd64 (B2R s + pi64) < 2 * pi64 -> B2R m = rnd64 (B2R s + pi64)) /\
      (rnd64 (B2R s + pi64) = 2 * pi64 -> B2R m = 0) /\
      is_finite (wrap1 n0 s) = true /\ B2R (wrap1 n0 s) = rnd64 (B2R m - pi64).
  Proof.
    intros Fs. pose proof pi64_bounds as PB. pose proof bpow_1024_gt as BG.
    destruct (plus64 s f64_pi Fs pi_finite) as [E1 F1].
    { eapply Rle_lt_trans; [|apply max64_lt]. apply rnd64_small_add; [apply max64_ub|].
      fold pi64. rewrite Rabs_pos_eq by lra. apply Rlt_trans with (bpow radix2 5); [simpl; lra|].
      apply bpow_lt. lia. }
    destruct (mod64 (Bplus mode_NE s f64_pi) twopi64 F1 twopi_finite) as (F2 & R2 & I2 & Z2).
    { rewrite twopi64_val. lra. }
    rewrite twopi64_val in R2, I2, Z2. rewrite E1 in I2, Z2. fold pi64 in I2, Z2.
    set (m := f64_mod (Bplus mode_NE s f64_pi) twopi64) in *.
    exists m. split; [exact F2|]. split; [exact R2|]. split; [exact I2|]. split; [exact Z2|].
    assert (B3 : - pi64 <= rnd64 (B2R m - pi64) <= pi64).
    { apply rnd64_bounds; [apply fmt64_opp, B2R_fmt | apply B2R_fmt | lra]. }
    destruct (minus64 m f64_pi F2 pi_finite) as [E3 F3].
    { fold pi64. apply Rle_lt_trans with pi64; [apply Rabs_le; lra|lra]. }
    fold pi64 in E3.
    assert (W : wrap1 n0 s = Bplus mode_NE (Bminus mode_NE m f64_pi) (B754_zero false)).
    { unfold wrap1. rewrite twopi_num, n0_num. reflexivity. }
    rewrite W.
    destruct (plus64 (Bminus mode_NE m f64_pi) (B754_zero false) F3 eq_refl) as [E4 F4].
    { simpl (B2R (B754_zero false)). rewrite Rplus_0_r, rnd64_id by apply B2R_fmt.
      rewrite E3. apply Rle_lt_trans with pi64; [apply Rabs_le; lra|lra]. }
    split; [exact F4|]. rewrite E4. simpl (B2R (B754_zero false)).
    rewrite Rplus_0_r, rnd64_id by apply B2R_fmt. exact E3.
  Qed.

  Lemma wrap64_range (s : f64) : is_finite s = true ->
    is_finite (wrap1 n0 s) = true /\ - pi64 <= B2R (wrap1 n0 s) <= pi64.
  Proof.
    intros Fs. destruct (wrap64_steps s Fs) as (m & _ & R & _ & _ & F & E).
    split; [exact F|]. rewrite E. pose proof pi64_bounds.
    apply rnd64_bounds; [apply fmt64_opp, B2R_fmt | apply B2R_fmt | lra].
  Qed.

  Lemma wrap64_nonfin (s : f64) : is_finite s = false -> wrap1 n0 s = B754_nan.
  Proof.
    intros H. unfold wrap1. rewrite twopi_num, n0_num. apply f64_eq.
    destruct s as [b|b| |b m e Hb]; try discriminate; [destruct b|]; vm_compute; reflexivity.
  Qed.

  (** If wrapping leaves both limits alone, it keeps every value between them. *)
  Lemma wrap64_keeps (lo hi s : f64) :
    is_finite lo = true -> is_finite hi = true -> is_finite s = true ->
    - pi64 <= B2R lo -> B2R lo <= B2R s <= B2R hi -> B2R hi < pi64 ->
    B2R (wrap1 n0 lo) = B2R lo -> B2R (wrap1 n0 hi) = B2R hi ->
    B2R lo <= B2R (wrap1 n0 s) <= B2R hi.
  Proof.
    intros Fl Fh Fs Pl [L H] Ph El Eh. pose proof pi64_bounds as PB.
    assert (Hi : rnd64 (B2R hi + pi64) < 2 * pi64).
    { assert (U : rnd64 (B2R hi + pi64) <= 2 * pi64).
      { rewrite <- twopi64_val. rewrite <- (rnd64_id (B2R twopi64)) by apply B2R_fmt.
        apply rnd64_le. rewrite twopi64_val. lra. }
      destruct (Rle_lt_or_eq_dec _ _ U) as [Lt|Eq]; [exact Lt|]. exfalso.
      destruct (wrap64_steps hi Fh) as (m & _ & _ & _ & Z & _ & E).
      rewrite (Z Eq), Rminus_0_l, rnd64_id in E by apply fmt64_opp, B2R_fmt.
      assert (EL : B2R hi = B2R lo) by lra.
      assert (rnd64 (B2R hi + pi64) = 0).
      { replace (B2R hi + pi64) with 0 by lra. apply rnd64_id, generic_format_0. }
      lra. }
    assert (Mono : forall x y : f64, is_finite x = true -> is_finite y = true ->
              - pi64 <= B2R x -> B2R x <= B2R y -> B2R y <= B2R hi ->
              B2R (wrap1 n0 x) <= B2R (wrap1 n0 y)).
    { intros x y Fx Fy Px XY Py.
      assert (In : forall z : f64, - pi64 <= B2R z -> B2R z <= B2R hi ->
                0 <= rnd64 (B2R z + pi64) < 2 * pi64).
      { intros z Z1 Z2. split.
        - rewrite <- (rnd64_id 0) by apply generic_format_0. apply rnd64_le. lra.
        - eapply Rle_lt_trans; [|exact Hi]. apply rnd64_le. lra. }
      destruct (wrap64_steps x Fx) as (mx & _ & _ & Ix & _ & _ & Ex).
      destruct (wrap64_steps y Fy) as (my & _ & _ & Iy & _ & _ & Ey).
      rewrite Ex, Ey, Ix, Iy by (apply In; lra). apply rnd64_le.
      apply Rplus_le_compat_r, rnd64_le. lra. }
    split.
    - rewrite <- El. apply Mono; auto; lra.
    - rewrite <- Eh. apply Mono; auto; lra.
  Qed.

  (** A limit that is a multiple of 2^-48 inside [-pi, pi) is left alone. *)
  Lemma wrap64_grid (s : f64) (k : Z) : is_finite s = true ->
    B2R s = F2R (Float radix2 k (-48)) -> - pi64 <= B2R s < pi64 -> B2R (wrap1 n0 s) = B2R s.
  Proof.
    intros Fs E R. pose proof pi64_bounds as PB.
    assert (Ks : (- 884279719003555 <= k < 884279719003555)%Z).
    { rewrite E, pi64_val in R. unfold F2R in R. simpl Fnum in R; simpl Fexp in R.
      pose proof (bpow_gt_0 radix2 (-48)) as P. destruct R as [R1 R2].
      split; [apply le_IZR|apply lt_IZR]; nra. }
    assert (S : B2R s + pi64 = F2R (Float radix2 (k + 884279719003555) (-48))).
    { rewrite E, pi64_val. unfold F2R; simpl Fnum; simpl Fexp. rewrite plus_IZR. ring. }
    assert (G : rnd64 (B2R s + pi64) = B2R s + pi64).
    { apply rnd64_id. rewrite S. apply fmt64_F2R; lia. }
    destruct (wrap64_steps s Fs) as (m & _ & _ & I & _ & _ & Ex).
    rewrite Ex, I by (rewrite G; lra). rewrite G.
    replace (B2R s + pi64 - pi64) with (B2R s) by ring. apply rnd64_id, B2R_fmt.
  Qed.
End W.
