(** Binary64 runs of the point masses against the damped motion (C119). *)
From Coq Require Import String ZArith Reals Bool List Lra Lia.
From Coquelicot Require Import Coquelicot.
From Flocq Require Import Core.Core IEEE754.BinarySingleNaN.
From Verif Require Import PyBase Num Arr BaseModel Cwh Integ Spec SpecBase SpecCwh SpecInteg SpecGlide BaseLemmas BaseLemmas2 BaseLemmas3 LimLemmas
  Float64 XTac SpecRound SpecLin LinRound LinInteg FlyEx SpecCoast.
Import List ListNotations.
Local Open Scope R_scope.

Lemma exp_neg_lo z : 1 - z <= exp (- z).
Proof. pose proof (exp_ineq1_le (- z)). lra. Qed.
Lemma exp_neg_hi z : 0 <= z -> exp (- z) <= 1 - z + z * z / 2.
Proof.
  intros Z. pose proof (exp_ge_taylor z 2 Z) as T. cbn [sum_f_R0 pow] in T. change (fact 0) with 1%nat in T. change (fact 1) with 1%nat in T. change (fact 2) with 2%nat in T.
  cbn [INR] in T. replace (1 / 1 + z * 1 / 1 + z * (z * 1) / (1 + 1)) with (1 + z + z * z / 2) in T by field.
  assert (E : exp (- z) * exp z = 1) by (rewrite <- exp_plus, Rplus_opp_l; apply exp_0).
  pose proof (exp_pos (- z)). assert (0 <= z * z) by nra. assert (P : 0 < 1 - z + z * z / 2) by nra.
  apply Rnot_lt_le. intros C. assert ((1 - z + z * z / 2) * (1 + z + z * z / 2) < 1); [|replace ((1 - z + z * z / 2) * (1 + z + z * z / 2)) with (1 + (z * z) * (z * z) / 4) in * by field; nra].
  apply Rlt_le_trans with (exp (- z) * (1 + z + z * z / 2)); [apply Rmult_lt_compat_r; nra|]. eapply Rle_trans; [|right; exact E]. apply Rmult_le_compat_l; lra.
Qed.

(** One step of the motion against one Euler step. *)
Lemma step_v m c v u h : m <> 0 -> 0 <= c -> 0 <= h ->
  Rabs (glide_v m c v u h - (v + h * (- c * v + u / m))) <= c * (c * Rabs v + Rabs (u / m)) * (h * h / 2).
Proof.
  intros M C Hh. unfold glide_v. destruct (Req_EM_T c 0) as [->|Nc].
  - replace (v + u / m * h - (v + h * (- 0 * v + u / m))) with 0 by ring. rewrite Rabs_R0. lra.
  - replace (v * exp (- c * h) + u / (m * c) * (1 - exp (- c * h)) - (v + h * (- c * v + u / m)))
      with ((c * v - u / m) * ((exp (- (c * h)) - 1 + c * h) / c)).
    2:{ replace (- c * h) with (- (c * h)) by ring. field. split; assumption. }
    rewrite Rabs_mult. assert (Z : 0 <= c * h) by nra.
    pose proof (exp_neg_lo (c * h)). pose proof (exp_neg_hi (c * h) Z).
    assert (Hc : 0 < c) by lra.
    assert (B : Rabs ((exp (- (c * h)) - 1 + c * h) / c) <= c * (h * h / 2)).
    { rewrite Rabs_pos_eq; [|apply Rmult_le_pos; [lra|left; apply Rinv_0_lt_compat; exact Hc]].
      apply Rmult_le_reg_r with c; [exact Hc|]. unfold Rdiv at 1. rewrite Rmult_assoc, Rinv_l by exact Nc. nra. }
    assert (A : Rabs (c * v - u / m) <= c * Rabs v + Rabs (u / m)).
    { eapply Rle_trans; [apply Rabs_triang|]. rewrite Rabs_Ropp, Rabs_mult, (Rabs_pos_eq c) by lra. lra. }
    replace (c * (c * Rabs v + Rabs (u / m)) * (h * h / 2)) with ((c * Rabs v + Rabs (u / m)) * (c * (h * h / 2))) by ring.
    apply Rmult_le_compat; try apply Rabs_pos; assumption.
Qed.
Lemma step_p m c p v u h : m <> 0 -> 0 <= c -> 0 <= h ->
  Rabs (glide_p m c p v u h - (p + h * v)) <= (c * Rabs v + Rabs (u / m)) * (h * h / 2).
Proof.
  intros M C Hh. unfold glide_p. destruct (Req_EM_T c 0) as [->|Nc].
  - replace (p + v * h + u / (2 * m) * h ^ 2 - (p + h * v)) with (u / m * (h * h / 2)) by (field; exact M).
    rewrite Rabs_mult, (Rabs_pos_eq (h * h / 2)) by nra. apply Rmult_le_compat_r; [nra|]. lra.
  - replace (p + u / (m * c) * h + (v - u / (m * c)) * (1 - exp (- c * h)) / c - (p + h * v))
      with ((c * v - u / m) * ((1 - c * h - exp (- (c * h))) / (c * c))).
    2:{ replace (- c * h) with (- (c * h)) by ring. field. split; assumption. }
    rewrite Rabs_mult. assert (Z : 0 <= c * h) by nra.
    pose proof (exp_neg_lo (c * h)). pose proof (exp_neg_hi (c * h) Z).
    assert (Hc : 0 < c * c) by nra.
    assert (B : Rabs ((1 - c * h - exp (- (c * h))) / (c * c)) <= h * h / 2).
    { rewrite Rabs_left1.
      2:{ apply Ropp_le_cancel. rewrite Ropp_0. unfold Rdiv. rewrite Ropp_mult_distr_l. apply Rmult_le_pos; [lra|left; apply Rinv_0_lt_compat; exact Hc]. }
      apply Rmult_le_reg_r with (c * c); [exact Hc|]. unfold Rdiv at 1. rewrite Ropp_mult_distr_l, Rmult_assoc, Rinv_l by lra. nra. }
    assert (A : Rabs (c * v - u / m) <= c * Rabs v + Rabs (u / m)).
    { eapply Rle_trans; [apply Rabs_triang|]. rewrite Rabs_Ropp, Rabs_mult, (Rabs_pos_eq c) by lra. lra. }
    apply Rmult_le_compat; try apply Rabs_pos; assumption.
Qed.
(** The motion gains at most the acceleration of the command. *)
Lemma gain_v m c v u h : m <> 0 -> 0 <= c -> 0 <= h -> Rabs (glide_v m c v u h) <= Rabs v + h * Rabs (u / m).
Proof.
  intros M C Hh. unfold glide_v. destruct (Req_EM_T c 0) as [->|Nc].
  - eapply Rle_trans; [apply Rabs_triang|]. rewrite Rabs_mult, (Rabs_pos_eq h) by lra. lra.
  - replace (u / (m * c) * (1 - exp (- c * h))) with (u / m * ((1 - exp (- (c * h))) / c)) by (replace (- c * h) with (- (c * h)) by ring; field; split; assumption).
    replace (- c * h) with (- (c * h)) by ring. assert (Z : 0 <= c * h) by nra. pose proof (exp_neg_lo (c * h)). pose proof (exp_pos (- (c * h))).
    assert (exp (- (c * h)) <= 1) by (rewrite <- exp_0; destruct (Rle_lt_or_eq_dec _ _ Z) as [Z'|<-]; [left; apply exp_increasing; lra|rewrite Ropp_0; lra]).
    assert (Hc : 0 < c) by lra.
    assert (B : Rabs ((1 - exp (- (c * h))) / c) <= h).
    { rewrite Rabs_pos_eq; [|apply Rmult_le_pos; [lra|left; apply Rinv_0_lt_compat; exact Hc]].
      apply Rmult_le_reg_r with c; [exact Hc|]. unfold Rdiv. rewrite Rmult_assoc, Rinv_l by exact Nc. lra. }
    eapply Rle_trans; [apply Rabs_triang|]. rewrite !Rabs_mult, (Rabs_pos_eq (exp _)) by lra.
    pose proof (Rabs_pos v). pose proof (Rabs_pos (u / m)). nra.
Qed.
Lemma gain_p m c p v u h : m <> 0 -> 0 <= c -> 0 <= h -> Rabs (glide_p m c p v u h) <= Rabs p + h * (Rabs v + h * Rabs (u / m)).
Proof.
  intros M C Hh. unfold glide_p. destruct (Req_EM_T c 0) as [->|Nc].
  - replace (p + v * h + u / (2 * m) * h ^ 2) with (p + (h * v + (h * h / 2) * (u / m))) by (field; exact M).
    eapply Rle_trans; [apply Rabs_triang|]. apply Rplus_le_compat_l. eapply Rle_trans; [apply Rabs_triang|].
    rewrite !Rabs_mult, (Rabs_pos_eq h), (Rabs_pos_eq (h * h / 2)) by nra. pose proof (Rabs_pos (u / m)). assert (0 <= h * h) by nra. nra.
  - replace (p + u / (m * c) * h + (v - u / (m * c)) * (1 - exp (- c * h)) / c)
      with (p + (v * ((1 - exp (- (c * h))) / c) + u / m * ((exp (- (c * h)) - 1 + c * h) / (c * c)))).
    2:{ replace (- c * h) with (- (c * h)) by ring. field. split; assumption. }
    assert (Z : 0 <= c * h) by nra. pose proof (exp_neg_lo (c * h)). pose proof (exp_neg_hi (c * h) Z). pose proof (exp_pos (- (c * h))).
    assert (exp (- (c * h)) <= 1) by (rewrite <- exp_0; destruct (Rle_lt_or_eq_dec _ _ Z) as [Z'|<-]; [left; apply exp_increasing; lra|rewrite Ropp_0; lra]).
    assert (Hc : 0 < c) by lra. assert (Hcc : 0 < c * c) by nra.
    assert (B : Rabs ((1 - exp (- (c * h))) / c) <= h).
    { rewrite Rabs_pos_eq; [|apply Rmult_le_pos; [lra|left; apply Rinv_0_lt_compat; exact Hc]].
      apply Rmult_le_reg_r with c; [exact Hc|]. unfold Rdiv. rewrite Rmult_assoc, Rinv_l by exact Nc. lra. }
    assert (B2 : Rabs ((exp (- (c * h)) - 1 + c * h) / (c * c)) <= h * h).
    { rewrite Rabs_pos_eq; [|apply Rmult_le_pos; [lra|left; apply Rinv_0_lt_compat; exact Hcc]].
      apply Rmult_le_reg_r with (c * c); [exact Hcc|]. unfold Rdiv. rewrite Rmult_assoc, Rinv_l by lra. nra. }
    eapply Rle_trans; [apply Rabs_triang|]. apply Rplus_le_compat_l. eapply Rle_trans; [apply Rabs_triang|]. rewrite !Rabs_mult.
    replace (h * (Rabs v + h * Rabs (u / m))) with (Rabs v * h + Rabs (u / m) * (h * h)) by ring.
    apply Rplus_le_compat; apply Rmult_le_compat_l; try apply Rabs_pos; assumption.
Qed.

Section Coef.
  Variables (B H V c A : R).
  Hypothesis (B0 : 0 <= B) (H0 : 0 <= H) (V0 : 0 <= V) (c0 : 0 <= c) (A0 : 0 <= A).
  Lemma round_pos : 0 <= coast_round B H V c A.
  Proof.
    unfold coast_round. pose proof (bpow_ge_0 radix2 (-52)). pose proof (bpow_ge_0 radix2 (-500)).
    assert (0 <= B + V + H * (V + c * V + A)) by (assert (0 <= c * V) by nra; assert (0 <= H * (V + c * V + A)) by (apply Rmult_le_pos; lra); lra).
    assert (0 <= 11 * bpow radix2 (-52) * (B + V + H * (V + c * V + A))) by (apply Rmult_le_pos; lra). lra.
  Qed.
  Lemma vel_pos : 0 <= coast_round B H V c A + c * (c * V + A) * (H * H / 2).
  Proof. pose proof round_pos. assert (0 <= c * (c * V + A) * (H * H / 2)) by (apply Rmult_le_pos; [apply Rmult_le_pos; [lra|nra]|nra]). lra. Qed.
  Lemma pos_pos : 0 <= coast_round B H V c A + (c * V + A) * (H * H / 2).
  Proof. pose proof round_pos. assert (0 <= (c * V + A) * (H * H / 2)) by (apply Rmult_le_pos; nra). lra. Qed.
  Lemma coast_v_pos k : 0 <= coast_v B H V c A k.
  Proof. apply Rmult_le_pos; [apply pos_INR|apply vel_pos]. Qed.
  Lemma coast_v_mono j k : (j <= k)%nat -> coast_v B H V c A j <= coast_v B H V c A k.
  Proof. intros L. apply Rmult_le_compat_r; [apply vel_pos|apply le_INR, L]. Qed.
  Lemma coast_p_mono j k : (j <= k)%nat -> coast_p B H V c A j <= coast_p B H V c A k.
  Proof.
    intros L. unfold coast_p. pose proof pos_pos. pose proof (coast_v_pos j). pose proof (coast_v_mono j k L).
    assert (0 <= H * coast_v B H V c A j) by (apply Rmult_le_pos; lra).
    apply Rmult_le_compat; [apply pos_INR|lra|apply le_INR, L|]. apply Rplus_le_compat_l, Rmult_le_compat_l; lra.
  Qed.
  Lemma coast_v_S j : coast_v B H V c A j + (coast_round B H V c A + c * (c * V + A) * (H * H / 2)) = coast_v B H V c A (S j).
  Proof. unfold coast_v. rewrite S_INR. ring. Qed.
  Lemma coast_p_S j : coast_p B H V c A j + H * coast_v B H V c A j + (coast_round B H V c A + (c * V + A) * (H * H / 2)) <= coast_p B H V c A (S j).
  Proof.
    unfold coast_p. rewrite S_INR. pose proof (coast_v_mono j (S j) ltac:(lia)). pose proof (pos_INR j).
    assert (H * coast_v B H V c A j <= H * coast_v B H V c A (S j)) by (apply Rmult_le_compat_l; lra).
    assert (INR j * (H * coast_v B H V c A j) <= INR j * (H * coast_v B H V c A (S j))) by (apply Rmult_le_compat_l; lra).
    lra.
  Qed.
End Coef.

(** One binary64 step of one axis against the motion. *)
Lemma axis_step B H V c A m j (P W P' W' : f64) (h u p v : R) :
  0 <= B -> 0 <= H -> 0 <= V -> 0 <= c -> 0 <= A -> c * H <= 1 -> m <> 0 -> 0 <= h <= H -> Rabs (u / m) <= A ->
  Rabs (B2R P - p) <= coast_p B H V c A j -> Rabs (B2R W - v) <= coast_v B H V c A j ->
  Rabs (B2R P) <= B -> Rabs (B2R W) <= V -> Rabs v <= V ->
  nearly 11 P' (B2R P + h * B2R W) (Rabs (B2R P) + Rabs h * Rabs (B2R W)) ->
  nearly 11 W' (B2R W + h * (- c * B2R W + u / m)) (Rabs (B2R W) + Rabs h * (Rabs c * Rabs (B2R W) + Rabs u / Rabs m)) ->
  Rabs (B2R P' - glide_p m c p v u h) <= coast_p B H V c A (S j) /\ Rabs (B2R W' - glide_v m c v u h) <= coast_v B H V c A (S j).
Proof.
  intros B0 H0 V0 c0 A0 cH M Hh Hu EP EW BP BW Bv [_ NP] [_ NW].
  pose proof (step_p m c p v u h M c0 (proj1 Hh)) as SP. pose proof (step_v m c v u h M c0 (proj1 Hh)) as SV.
  assert (Hi : Rabs u / Rabs m = Rabs (u / m)) by (unfold Rdiv; rewrite Rabs_mult, Rabs_inv; reflexivity). rewrite Hi in NW.
  rewrite (Rabs_pos_eq h) in NP, NW by lra. rewrite (Rabs_pos_eq c) in NW by lra. change (INR 11) with (1+1+1+1+1+1+1+1+1+1+1) in NP, NW.
  set (X := Rabs (u / m)) in *. assert (X0 : 0 <= X) by apply Rabs_pos. clearbody X.
  set (d := bpow radix2 (-52)) in *. assert (d0 : 0 <= d) by apply bpow_ge_0.
  set (aP := Rabs (B2R P)) in *. set (aW := Rabs (B2R W)) in *. assert (0 <= aP) by apply Rabs_pos. assert (W0 : 0 <= aW) by apply Rabs_pos.
  set (av := Rabs v) in *. assert (v0 : 0 <= av) by apply Rabs_pos.
  assert (cW : c * aW <= c * V) by (apply Rmult_le_compat_l; lra). assert (cW0 : 0 <= c * aW) by (apply Rmult_le_pos; lra). assert (cv : c * av <= c * V) by (apply Rmult_le_compat_l; lra).
  assert (cv0 : 0 <= c * av) by (apply Rmult_le_pos; lra).
  assert (hW : h * aW <= H * V) by (apply Rmult_le_compat; lra).
  assert (hA : h * (c * aW + X) <= H * (c * V + A)) by (apply Rmult_le_compat; lra).
  assert (HV0 : 0 <= H * V) by (apply Rmult_le_pos; lra). assert (HA0 : 0 <= H * (c * V + A)) by (apply Rmult_le_pos; lra).
  assert (RP : Rabs (B2R P' - (B2R P + h * B2R W)) <= coast_round B H V c A).
  { eapply Rle_trans; [exact NP|]. unfold coast_round. apply Rplus_le_compat_r. fold d.
    replace (1 + 1 + 1 + 1 + 1 + 1 + 1 + 1 + 1 + 1 + 1) with 11 by ring. apply Rmult_le_compat_l; lra. }
  assert (RW : Rabs (B2R W' - (B2R W + h * (- c * B2R W + u / m))) <= coast_round B H V c A).
  { eapply Rle_trans; [exact NW|]. unfold coast_round. apply Rplus_le_compat_r. fold d.
    replace (1 + 1 + 1 + 1 + 1 + 1 + 1 + 1 + 1 + 1 + 1) with 11 by ring. apply Rmult_le_compat_l; lra. }
  assert (hh : 0 <= h * h / 2 <= H * H / 2) by (split; [nra|]; apply Rmult_le_compat_r; [lra|]; apply Rmult_le_compat; lra).
  assert (SP' : Rabs (glide_p m c p v u h - (p + h * v)) <= (c * V + A) * (H * H / 2)) by (eapply Rle_trans; [exact SP|]; apply Rmult_le_compat; lra).
  assert (SV' : Rabs (glide_v m c v u h - (v + h * (- c * v + u / m))) <= c * (c * V + A) * (H * H / 2)).
  { eapply Rle_trans; [exact SV|]. apply Rmult_le_compat; [apply Rmult_le_pos; lra|lra|apply Rmult_le_compat_l; lra|lra]. }
  pose proof (coast_v_pos B H V c A B0 H0 V0 c0 A0 j) as Ev0.
  split.
  - eapply Rle_trans; [|apply coast_p_S; assumption].
    replace (B2R P' - glide_p m c p v u h) with ((B2R P' - (B2R P + h * B2R W)) - (glide_p m c p v u h - (p + h * v)) + ((B2R P - p) + h * (B2R W - v))) by ring.
    eapply Rle_trans; [apply Rabs_triang|]. eapply Rle_trans; [apply Rplus_le_compat; [apply Rabs_triang|apply Rabs_triang]|].
    rewrite Rabs_Ropp, (Rabs_mult h), (Rabs_pos_eq h) by lra.
    assert (h * Rabs (B2R W - v) <= H * coast_v B H V c A j) by (apply Rmult_le_compat; try lra; apply Rabs_pos). lra.
  - rewrite <- coast_v_S.
    replace (B2R W' - glide_v m c v u h) with ((B2R W' - (B2R W + h * (- c * B2R W + u / m))) - (glide_v m c v u h - (v + h * (- c * v + u / m))) + (1 - c * h) * (B2R W - v)) by ring.
    eapply Rle_trans; [apply Rabs_triang|]. eapply Rle_trans; [apply Rplus_le_compat_r, Rabs_triang|].
    assert (ch : 0 <= c * h <= 1) by (split; [apply Rmult_le_pos; lra|]; eapply Rle_trans; [apply Rmult_le_compat_l; [exact c0|apply (proj2 Hh)]|exact cH]).
    rewrite Rabs_Ropp, Rabs_mult, (Rabs_pos_eq (1 - c * h)) by lra.
    assert ((1 - c * h) * Rabs (B2R W - v) <= 1 * coast_v B H V c A j) by (apply Rmult_le_compat; try lra; apply Rabs_pos). lra.
Qed.

Lemma near_abs a b e K : Rabs (a - b) <= e -> e <= 1 -> Rabs b + 1 <= K -> Rabs a <= K.
Proof. intros X1 X2 X3. pose proof (Rabs_triang_inv a b). lra. Qed.
Lemma force_le lo hi m A x : m <> 0 -> Rabs (lo / m) <= A -> Rabs (hi / m) <= A -> Rabs (clipR lo hi x / m) <= A.
Proof.
  intros M L1 L2. unfold Rdiv in *. rewrite Rabs_mult, Rabs_inv in *. assert (Mp : 0 < Rabs m) by (apply Rabs_pos_lt, M).
  assert (Q : forall y, Rabs y * / Rabs m <= A <-> Rabs y <= A * Rabs m).
  { intros y. split; intros Y.
    - apply Rmult_le_reg_r with (/ Rabs m); [apply Rinv_0_lt_compat, Mp|]. rewrite Rmult_assoc, Rinv_r by lra. lra.
    - apply Rmult_le_reg_r with (Rabs m); [exact Mp|]. rewrite Rmult_assoc, Rinv_l by lra. lra. }
  apply Q in L1, L2. apply Q. apply Rabs_le_inv in L1, L2. apply Rabs_le. unfold clipR, Rmin, Rmax. repeat destruct (Rle_dec _ _); lra.
Qed.
Lemma nth_forall {X} (Q : X -> Prop) l d : (forall i, (i < length l)%nat -> Q (nth i l d)) -> Forall Q l.
Proof. intros F. apply Forall_forall. intros x I. destruct (In_nth _ _ d I) as (i & L & <-). apply F, L. Qed.

Section F.
  Variable lm : libm.
  Local Hint Extern 0 (Num f64) => exact (F64 lm) : typeclass_instances.

  Lemma coast_run (w : world f64) (m c : f64) mode k samples (lo hi : f64) B H V A N :
    offered mode k -> (samples <= 0)%Z -> SpecRound.within 100 lo -> SpecRound.within 100 hi ->
    is_finite m = true -> bpow radix2 (-100) <= Rabs (B2R m) -> SpecRound.within 100 c -> 0 <= B2R c -> B2R c * H <= 1 -> 0 <= H -> 0 <= B -> 0 <= V -> 0 <= A ->
    Rabs (B2R lo / B2R m) <= A -> Rabs (B2R hi / B2R m) <= A -> B <= bpow radix2 100 -> V <= bpow radix2 100 ->
    coast_p B H V (B2R c) A N <= 1 -> coast_v B H V (B2R c) A N <= 1 ->
    forall l j (e : entity f64) ps vs (pe ve : nat -> R), (j + length l = N)%nat ->
    integ_dyn m c mode samples "Euler" = Ok (e_dyn e) -> e_cmin e = A0 lo -> e_cmax e = A0 hi -> e_state e = A1 (ps ++ vs) -> length ps = k -> length vs = k ->
    Forall (coast_ok H k) l ->
    (forall i, (i < k)%nat -> is_finite (nth i ps (B754_zero false)) = true /\ is_finite (nth i vs (B754_zero false)) = true /\
      Rabs (B2R (nth i ps (B754_zero false)) - pe i) <= coast_p B H V (B2R c) A j /\ Rabs (B2R (nth i vs (B754_zero false)) - ve i) <= coast_v B H V (B2R c) A j /\
      Rabs (ve i) + INR (length l) * (H * A) + 1 <= V /\ Rabs (pe i) + INR (length l) * (H * V) + 1 <= B) ->
    exists e' ps' vs', run w e (acts64 l) = Ok e' /\ e_state e' = A1 (ps' ++ vs') /\ length ps' = k /\ length vs' = k /\
    forall i, (i < k)%nat ->
      let g := coast (B2R m) (B2R c) (pe i, ve i) (map (axis_force (B2R lo) (B2R hi) i) l) in
      is_finite (nth i ps' (B754_zero false)) = true /\ is_finite (nth i vs' (B754_zero false)) = true /\
      Rabs (B2R (nth i ps' (B754_zero false)) - fst g) <= coast_p B H V (B2R c) A N /\ Rabs (B2R (nth i vs' (B754_zero false)) - snd g) <= coast_v B H V (B2R c) A N.
  Proof.
    intros Of Sa Wlo Whi Fm Hm Wc c0 cH H0 B0 V0 A0' Al Ah B9 V9 FP FV.
    assert (M0 : B2R m <> 0) by (intros E; rewrite E, Rabs_R0 in Hm; pose proof (bpow_gt_0 radix2 (-100)); lra).
    induction l as [|[h us] l IH]; intros j e ps vs pe ve EN Ed E1 E2 Es Lp Lv Fa Inv.
    { exists e, ps, vs. cbn in EN. rewrite Nat.add_0_r in EN. subst j. split; [reflexivity|]. split; [exact Es|]. split; [exact Lp|]. split; [exact Lv|].
      intros i Hi. destruct (Inv i Hi) as (I1 & I2 & I3 & I4 & _). cbn [map coast fst snd]. auto. }
    inversion Fa as [|? ? [Wh [Hh [Lu Fu]]] Fa']; subst. cbn [fst snd] in Wh, Hh, Lu, Fu. cbn [length] in *.
    assert (jN : (S j <= j + S (length l))%nat) by lia.
    assert (Pj : coast_p B H V (B2R c) A j <= 1) by (eapply Rle_trans; [apply (coast_p_mono B H V (B2R c) A B0 H0 V0 c0 A0' j (j + S (length l))); lia|exact FP]).
    assert (Vj : coast_v B H V (B2R c) A j <= 1) by (eapply Rle_trans; [apply (coast_v_mono B H V (B2R c) A B0 H0 V0 c0 A0' j (j + S (length l))); lia|exact FV]).
    assert (HA : 0 <= H * A) by (apply Rmult_le_pos; lra). assert (HV : 0 <= H * V) by (apply Rmult_le_pos; lra).
    pose proof (pos_INR (length l)) as Nl.
    assert (Big : forall i, (i < length ps)%nat -> Rabs (B2R (nth i ps (B754_zero false))) <= B /\ Rabs (B2R (nth i vs (B754_zero false))) <= V).
    { intros i Hi. destruct (Inv i Hi) as (_ & _ & I3 & I4 & I5 & I6).
      assert (0 <= INR (S (length l)) * (H * A)) by (apply Rmult_le_pos; [apply pos_INR|lra]). assert (0 <= INR (S (length l)) * (H * V)) by (apply Rmult_le_pos; [apply pos_INR|lra]).
      split; [apply (near_abs _ _ _ _ I3 Pj)|apply (near_abs _ _ _ _ I4 Vj)]; lra. }
    destruct (integ_round lm w e m c mode (length ps) samples lo hi h ps vs us Of Ed Sa E1 E2 Wlo Whi Wh Fm Hm Wc eq_refl Lv Lu) as (ps1 & vs1 & R1 & R2 & R3 & R4 & R5).
    { apply (nth_forall _ _ (B754_zero false)). intros i Hi. destruct (Inv i Hi) as (I1 & _). split; [exact I1|]. apply (Rle_trans _ B); [apply (Big i Hi)|exact B9]. }
    { apply (nth_forall _ _ (B754_zero false)). intros i Hi0. assert (Hi : (i < length ps)%nat) by (rewrite <- Lv; exact Hi0). destruct (Inv i Hi) as (_ & I2 & _). split; [exact I2|]. apply (Rle_trans _ V); [apply (Big i Hi)|exact V9]. }
    { exact Fu. }
    { exact Es. }
    set (u := fun i => clipR (B2R lo) (B2R hi) (B2R (nth i us (B754_zero false)))).
    destruct (IH (S j) (o_entity (entity_step w e h (AArr (A1 us)))) ps1 vs1 (fun i => glide_p (B2R m) (B2R c) (pe i) (ve i) (u i) (B2R h)) (fun i => glide_v (B2R m) (B2R c) (ve i) (u i) (B2R h)))
      as (e' & ps' & vs' & Q1 & Q2 & Q3 & Q4 & Q5); try assumption.
    { lia. }
    { destruct (entity_step_config w e h (AArr (A1 us))) as (-> & _). exact Ed. }
    { destruct (entity_step_config w e h (AArr (A1 us))) as (_ & _ & -> & _). exact E1. }
    { destruct (entity_step_config w e h (AArr (A1 us))) as (_ & _ & _ & -> & _). exact E2. }
    { intros i Hi. destruct (R5 i Hi) as [NP NW]. destruct (Inv i Hi) as (I1 & I2 & I3 & I4 & I5 & I6). destruct (Big i Hi) as [BP BW].
      split; [apply NP|]. split; [apply NW|]. fold (u i) in NW. cbv zeta in NP, NW.
      assert (Au : Rabs (u i / B2R m) <= A) by (apply force_le; assumption).
      rewrite S_INR in I5, I6. assert (0 <= INR (length l) * (H * A)) by (apply Rmult_le_pos; lra). assert (0 <= INR (length l) * (H * V)) by (apply Rmult_le_pos; lra).
      destruct (axis_step B H V (B2R c) A (B2R m) j (nth i ps (B754_zero false)) (nth i vs (B754_zero false)) (nth i ps1 (B754_zero false)) (nth i vs1 (B754_zero false)) (B2R h) (u i) (pe i) (ve i))
        as [X Y]; try assumption; [lra|].
      split; [exact X|]. split; [exact Y|].
      pose proof (gain_v (B2R m) (B2R c) (ve i) (u i) (B2R h) M0 c0 (proj1 Hh)) as Gv. pose proof (gain_p (B2R m) (B2R c) (pe i) (ve i) (u i) (B2R h) M0 c0 (proj1 Hh)) as Gp.
      assert (G1 : B2R h * Rabs (u i / B2R m) <= H * A) by (apply Rmult_le_compat; try lra; apply Rabs_pos).
      assert (G2 : B2R h * (Rabs (ve i) + B2R h * Rabs (u i / B2R m)) <= H * V).
      { apply Rmult_le_compat; try lra. apply Rplus_le_le_0_compat; [apply Rabs_pos|apply Rmult_le_pos; [lra|apply Rabs_pos]]. }
      split; lra. }
    exists e', ps', vs'. split.
    { cbn [acts64 map run fst snd]. rewrite R1. cbn [bind]. exact Q1. }
    split; [exact Q2|]. split; [exact Q3|]. split; [exact Q4|]. intros i Hi. specialize (Q5 i Hi). exact Q5.
  Qed.
  Lemma coast_main (w : world f64) (e : entity f64) (m c : f64) mode k samples (lo hi : f64) B H V A ps vs l :
    offered mode k -> integ_dyn m c mode samples "Euler" = Ok (e_dyn e) -> (samples <= 0)%Z ->
    e_cmin e = A0 lo -> e_cmax e = A0 hi -> SpecRound.within 100 lo -> SpecRound.within 100 hi ->
    is_finite m = true -> bpow radix2 (-100) <= Rabs (B2R m) -> SpecRound.within 100 c -> 0 <= B2R c -> B2R c * H <= 1 -> 0 <= H ->
    Rabs (B2R lo / B2R m) <= A -> Rabs (B2R hi / B2R m) <= A ->
    e_state e = A1 (ps ++ vs) -> length ps = k -> length vs = k -> Forall (fun a : f64 => is_finite a = true) (ps ++ vs) ->
    Forall (coast_ok H k) l ->
    Forall (fun a : f64 => Rabs (B2R a) + INR (length l) * (H * V) + 1 <= B) ps ->
    Forall (fun a : f64 => Rabs (B2R a) + INR (length l) * (H * A) + 1 <= V) vs ->
    B <= bpow radix2 100 -> V <= bpow radix2 100 ->
    coast_p B H V (B2R c) A (length l) <= 1 -> coast_v B H V (B2R c) A (length l) <= 1 ->
    exists e' ps' vs', run w e (acts64 l) = Ok e' /\ e_state e' = A1 (ps' ++ vs') /\ length ps' = k /\ length vs' = k /\
    forall i, (i < k)%nat ->
      let at_ (a : list f64) := nth i a (B754_zero false) in
      let g := coast (B2R m) (B2R c) (B2R (at_ ps), B2R (at_ vs)) (map (axis_force (B2R lo) (B2R hi) i) l) in
      is_finite (at_ ps') = true /\ is_finite (at_ vs') = true /\
      Rabs (B2R (at_ ps') - fst g) <= coast_p B H V (B2R c) A (length l) /\ Rabs (B2R (at_ vs') - snd g) <= coast_v B H V (B2R c) A (length l).
  Proof.
    intros Of Ed Sa E1 E2 Wlo Whi Fm Hm Wc c0 cH H0 Al Ah Es Lp Lv Fs Fl Fp Fv B9 V9 CP CV.
    assert (K0 : (0 < k)%nat) by (destruct Of as [[_ ->]|[[_ ->]|[_ ->]]]; lia).
    assert (A0' : 0 <= A) by (eapply Rle_trans; [apply Rabs_pos|exact Al]).
    assert (V0 : 0 <= V).
    { destruct vs as [|v vs]; [cbn in Lv; lia|]. inversion Fv; subst.
      assert (0 <= INR (length l) * (H * A)) by (apply Rmult_le_pos; [apply pos_INR|apply Rmult_le_pos; lra]). pose proof (Rabs_pos (B2R v)). lra. }
    assert (B0 : 0 <= B).
    { destruct ps as [|p ps]; [cbn in Lp; lia|]. inversion Fp; subst.
      assert (0 <= INR (length l) * (H * V)) by (apply Rmult_le_pos; [apply pos_INR|apply Rmult_le_pos; lra]). pose proof (Rabs_pos (B2R p)). lra. }
    apply Forall_app in Fs. destruct Fs as [F1 F2].
    apply (coast_run w m c mode k samples lo hi B H V A (length l)) with (j := 0%nat) (ps := ps) (vs := vs) (pe := fun i => B2R (nth i ps (B754_zero false))) (ve := fun i => B2R (nth i vs (B754_zero false))); try assumption; [reflexivity|].
    intros i Hi. rewrite Forall_nth in F1, F2, Fp, Fv.
    split; [apply F1; lia|]. split; [apply F2; lia|]. rewrite !Rminus_eq_0, Rabs_R0.
    split; [unfold coast_p; cbn [INR]; lra|]. split; [unfold coast_v; cbn [INR]; lra|].
    split; [apply Fv; lia|apply Fp; lia].
  Qed.
End F.

Lemma body_ok {T} {N : Num T} (m c x y vx vy : T) : neqb m n0 = false -> exists e, integrator2d_body m c 0 "Euler" x y vx vy = Ok e.
Proof.
  intros E. unfold integrator2d_body, integ_dyn, generate_dynamics_matrices, pydiv. rewrite E. cbn. eexists. reflexivity.
Qed.
Lemma coast_ex (lm : libm) (w : world f64) l : length l = 100%nat -> Forall (coast_ok (1 / 100) 2) l ->
  exists e e' ps vs, integrator2d_body (N := F64 lm) (fl 2 1) (fl 1 2) 0 "Euler" (fl 10 1) (fl 100 1) (fl 3 1) (fl 4 1) = Ok e /\
    run (N := F64 lm) w e (acts64 l) = Ok e' /\ e_state e' = A1 (ps ++ vs) /\
    forall i, (i < 2)%nat ->
      let g := coast 2 (1 / 2) (nth i [10; 100] 0, nth i [3; 4] 0) (map (axis_force (-1) 1 i) l) in
      Rabs (B2R (nth i ps (B754_zero false)) - fst g) <= 1 / 20 /\ Rabs (B2R (nth i vs (B754_zero false)) - snd g) <= 1 / 100.
Proof.
  intros Ll Fo.
  assert (Vm : is_finite (fl 2 1) = true /\ B2R (fl 2 1) = 2) by flv.
  assert (Vc : is_finite (fl 1 2) = true /\ B2R (fl 1 2) = 1 / 2) by flv.
  assert (Vl : is_finite (fl (-1) 1) = true /\ B2R (fl (-1) 1) = -1) by flv.
  assert (Vh : is_finite (fl 1 1) = true /\ B2R (fl 1 1) = 1) by flv.
  assert (X1 : is_finite (f64_f32 (fl 10 1)) = true /\ B2R (f64_f32 (fl 10 1)) = 10) by flv.
  assert (X2 : is_finite (f64_f32 (fl 100 1)) = true /\ B2R (f64_f32 (fl 100 1)) = 100) by flv.
  assert (X3 : is_finite (f64_f32 (fl 3 1)) = true /\ B2R (f64_f32 (fl 3 1)) = 3) by flv.
  assert (X4 : is_finite (f64_f32 (fl 4 1)) = true /\ B2R (f64_f32 (fl 4 1)) = 4) by flv.
  destruct Vm as [Fm Vm], Vc as [Fc Vc], Vl as [Fl Vl], Vh as [Fh Vh], X1 as [F1 X1], X2 as [F2 X2], X3 as [F3 X3], X4 as [F4 X4].
  assert (Big : 1024 <= bpow radix2 100) by (change 1024 with (bpow radix2 10); apply bpow_le; lia).
  assert (Small : bpow radix2 (-100) <= 1) by (change 1 with (bpow radix2 0); apply bpow_le; lia).
  assert (Tiny : bpow radix2 (-500) <= bpow radix2 (-52)) by (apply bpow_le; lia).
  assert (Ulp : bpow radix2 (-52) <= / 1000000000) by (eapply Rle_trans; [apply (bpow_le radix2 (-52) (-30)); lia|cbn; lra]).
  assert (U0 : 0 <= bpow radix2 (-52)) by apply bpow_ge_0. assert (T0 : 0 <= bpow radix2 (-500)) by apply bpow_ge_0.
  destruct (body_ok (N := F64 lm) (fl 2 1) (fl 1 2) (fl 10 1) (fl 100 1) (fl 3 1) (fl 4 1)) as [e E]; [vm_compute; reflexivity|].
  pose proof E as E0.
  unfold integrator2d_body in E. destruct (integ_dyn (N := F64 lm) (fl 2 1) (fl 1 2) "2d" 0 "Euler") as [d|] eqn:Ed; [|discriminate].
  cbn [bind] in E. injection E as Ee.
  assert (Cv : coast_v 110 (1 / 100) 6 (1 / 2) (1 / 2) 100 <= 1 / 100).
  { unfold coast_v, coast_round. rewrite INR_IZR_INZ. cbn [Z.of_nat Pos.of_succ_nat Pos.succ]. lra. }
  assert (Cp : coast_p 110 (1 / 100) 6 (1 / 2) (1 / 2) 100 <= 1 / 20).
  { unfold coast_p. revert Cv. generalize (coast_v 110 (1 / 100) 6 (1 / 2) (1 / 2) 100). intros x Cv. unfold coast_round. rewrite INR_IZR_INZ. cbn [Z.of_nat Pos.of_succ_nat Pos.succ]. lra. }
  assert (Nl : INR 100 = 100) by (rewrite INR_IZR_INZ; reflexivity).
  destruct (coast_main lm w e (fl 2 1) (fl 1 2) "2d" 2 0 (fl (-1) 1) (fl 1 1) 110 (1 / 100) 6 (1 / 2) [f64_f32 (fl 10 1); f64_f32 (fl 100 1)] [f64_f32 (fl 3 1); f64_f32 (fl 4 1)] l)
    as (e' & ps & vs & R1 & R2 & R3 & R4 & R5).
  - right; left; auto.
  - rewrite Ed, <- Ee. reflexivity.
  - lia.
  - rewrite <- Ee. reflexivity.
  - rewrite <- Ee. reflexivity.
  - split; [exact Fl|rewrite Vl]. unfold Rabs; destruct (Rcase_abs _); lra.
  - split; [exact Fh|rewrite Vh]. unfold Rabs; destruct (Rcase_abs _); lra.
  - exact Fm.
  - rewrite Vm. unfold Rabs; destruct (Rcase_abs _); lra.
  - split; [exact Fc|rewrite Vc]. unfold Rabs; destruct (Rcase_abs _); lra.
  - rewrite Vc. lra.
  - rewrite Vc. lra.
  - lra.
  - rewrite Vl, Vm. unfold Rabs; destruct (Rcase_abs _); lra.
  - rewrite Vh, Vm. unfold Rabs; destruct (Rcase_abs _); lra.
  - rewrite <- Ee. reflexivity.
  - reflexivity.
  - reflexivity.
  - cbn [app]. repeat constructor; assumption.
  - exact Fo.
  - rewrite Ll, Nl. repeat constructor; rewrite ?X1, ?X2; unfold Rabs; destruct (Rcase_abs _); lra.
  - rewrite Ll, Nl. repeat constructor; rewrite ?X3, ?X4; unfold Rabs; destruct (Rcase_abs _); lra.
  - lra.
  - lra.
  - rewrite Ll, Vc. lra.
  - rewrite Ll, Vc. lra.
  - exists e, e', ps, vs. split; [exact E0|]. split; [exact R1|]. split; [exact R2|]. intros i Hi. specialize (R5 i Hi). cbv zeta in R5.
    destruct R5 as (_ & _ & P & W). rewrite Ll, Vc, Vm, Vl, Vh in P, W.
    destruct i as [|[|i]]; [| |lia]; cbn [nth] in P, W |- *; rewrite ?X1, ?X2, ?X3, ?X4 in P, W; split; lra.
Qed.
Lemma coast_ok_ex : Forall (coast_ok (1 / 100) 2) (repeat (fl 1 128, [fl 5 1; fl (-1) 4]) 100).
Proof.
  apply Forall_forall. intros x I. apply repeat_spec in I. subst x. unfold coast_ok. cbn [fst snd].
  assert (Vh : is_finite (fl 1 128) = true /\ B2R (fl 1 128) = 1 / 128) by flv. destruct Vh as [F E].
  assert (Big : 1 <= bpow radix2 100) by (change 1 with (bpow radix2 0); apply bpow_le; lia).
  split; [split; [exact F|rewrite E; unfold Rabs; destruct (Rcase_abs _); lra]|]. rewrite E. split; [lra|]. split; [reflexivity|]. repeat constructor; vm_compute; reflexivity.
Qed.
