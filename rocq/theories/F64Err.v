(** Forward error analysis of binary64 additions and multiplications (C106). *)
From Coq Require Import ZArith Reals Bool List Lra Lia.
From Flocq Require Import Core.Core Relative IEEE754.BinarySingleNaN.
From Verif Require Import PyBase Num NumOrdLemmas Float64 F64Wrap F64Bound.
Import List ListNotations.
Local Open Scope R_scope.

Definition u64 : R := bpow radix2 (-53).
Definition eta64 : R := bpow radix2 (-1075).

(** Relative error after [k] roundings. *)
Definition eps (k : nat) : R := (1 + u64) ^ k - 1.

Lemma u64_pos : 0 < u64 <= / 1000000.
Proof. unfold u64. simpl. lra. Qed.
Lemma eta64_pos : 0 < eta64.
Proof. apply bpow_gt_0. Qed.

Lemma rnd_err x : Rabs (rnd64 x - x) <= u64 * Rabs x + eta64.
Proof.
  destruct (error_N_FLT radix2 (-1074) 53 eq_refl (fun z => negb (Z.even z)) x) as (e & et & H1 & H2 & _ & H).
  change (rnd64 x) with (round radix2 (FLT_exp (-1074) 53) ZnearestE x). rewrite H.
  replace (x * (1 + e) + et - x) with (x * e + et) by ring.
  eapply Rle_trans; [apply Rabs_triang|]. rewrite Rabs_mult, (Rmult_comm u64).
  apply Rplus_le_compat.
  - apply Rmult_le_compat_l; [apply Rabs_pos|]. eapply Rle_trans; [exact H1|]. unfold u64.
    change (bpow radix2 (-53)) with (bpow radix2 (-1 + (- (53) + 1))). rewrite (bpow_plus _ (-1)). apply Rle_refl.
  - eapply Rle_trans; [exact H2|]. unfold eta64.
    change (bpow radix2 (-1075)) with (bpow radix2 (-1 + -1074)). rewrite (bpow_plus _ (-1)). apply Rle_refl.
Qed.

Lemma eps_S k : eps (S k) = u64 + (1 + u64) * eps k.
Proof. unfold eps. simpl. ring. Qed.
Lemma eps_pos k : 0 <= eps k.
Proof. induction k; [unfold eps; simpl; lra|]. rewrite eps_S. pose proof u64_pos. nra. Qed.
Lemma eps_le k : (k <= 1000)%nat -> eps k <= 2 * INR k * u64.
Proof.
  pose proof u64_pos. induction k; intros H'; [unfold eps; simpl; lra|]. rewrite eps_S, S_INR.
  assert (INR k <= 1000) by (apply le_INR in H'; rewrite S_INR in H'; replace (INR 1000) with 1000 in H' by (simpl; lra); lra).
  assert (eps k <= 1) by (specialize (IHk ltac:(lia)); nra). specialize (IHk ltac:(lia)). nra.
Qed.
Lemma eps_1 k : (k <= 1000)%nat -> eps k <= 1.
Proof.
  intros H. pose proof (eps_le k H). pose proof u64_pos. apply le_INR in H. replace (INR 1000) with 1000 in H by (simpl; lra). nra.
Qed.
Lemma eps_mono j k : (j <= k)%nat -> eps j <= eps k.
Proof. intros H. unfold eps. apply Rplus_le_compat_r, Rle_pow; [pose proof u64_pos; lra|exact H]. Qed.
Lemma eps_add j k : eps (j + k) = eps j + eps k + eps j * eps k.
Proof. unfold eps. rewrite pow_add. ring. Qed.

(** [a] approximates [t] after [k] roundings; [g] bounds the absolute values of the terms that make up
    [t]; [D] bounds underflow. *)
Record ap (k : nat) (G D : Z) (a : f64) (t g : R) : Prop := {
  ap_fin : is_finite a = true;
  ap_err : Rabs (B2R a - t) <= eps k * g + bpow radix2 D;
  ap_t : Rabs t <= g;
  ap_g : g <= bpow radix2 G
}.

Lemma round_step v k t g d : 0 <= d -> Rabs (v - t) <= eps k * g + d -> Rabs t <= g ->
  Rabs (rnd64 v - t) <= eps (S k) * g + (2 * d + eta64).
Proof.
  intros Hd H Ht. pose proof (rnd_err v). pose proof u64_pos.
  assert (Rabs v <= Rabs t + Rabs (v - t)).
  { replace v with (t + (v - t)) at 1 by ring. apply Rabs_triang. }
  assert (Rabs (rnd64 v - t) <= Rabs (rnd64 v - v) + Rabs (v - t)).
  { replace (rnd64 v - t) with ((rnd64 v - v) + (v - t)) by ring. apply Rabs_triang. }
  rewrite eps_S. assert (u64 * Rabs v <= u64 * (g + (eps k * g + d))) by (apply Rmult_le_compat_l; lra). nra.
Qed.

Lemma bpow2_le a b : (a <= b)%Z -> bpow radix2 a <= bpow radix2 b.
Proof. apply bpow_le. Qed.
Lemma bpow2_S a : bpow radix2 (a + 1) = 2 * bpow radix2 a.
Proof. rewrite bpow_plus. change (bpow radix2 1) with 2. ring. Qed.

Lemma ap_size k G D a t g : (k <= 1000)%nat -> (D <= G)%Z -> ap k G D a t g -> bounded (G + 2) a.
Proof.
  intros Hk HD [F E T Gg]. split; [exact F|]. replace (G + 2)%Z with (G + 1 + 1)%Z by ring. rewrite !bpow2_S.
  pose proof (bpow2_le _ _ HD). pose proof (eps_1 k Hk). pose proof (eps_pos k).
  assert (Rabs (B2R a) <= Rabs t + Rabs (B2R a - t)).
  { replace (B2R a) with (t + (B2R a - t)) at 1 by ring. apply Rabs_triang. }
  pose proof (Rabs_pos t). nra.
Qed.

Lemma ap_add k1 G1 D1 a t1 g1 k2 G2 D2 b t2 g2 :
  (k1 <= 1000)%nat -> (k2 <= 1000)%nat -> (0 <= G1 <= 900)%Z -> (0 <= G2 <= 900)%Z ->
  (-1075 <= D1 <= 0)%Z -> (-1075 <= D2 <= 0)%Z ->
  ap k1 G1 D1 a t1 g1 -> ap k2 G2 D2 b t2 g2 ->
  ap (S (Nat.max k1 k2)) (Z.max G1 G2 + 1) (Z.max D1 D2 + 3) (Bplus mode_NE a b) (t1 + t2) (g1 + g2).
Proof.
  intros K1 K2 R1 R2 Q1 Q2 A1 A2.
  pose proof (ap_size k1 G1 D1 a t1 g1 K1 ltac:(lia) A1) as S1.
  pose proof (ap_size k2 G2 D2 b t2 g2 K2 ltac:(lia) A2) as S2.
  set (G := Z.max G1 G2) in *. set (D := Z.max D1 D2) in *.
  assert (B1 : bounded (G + 2) a) by (eapply bounded_mono; [|exact S1]; lia).
  assert (B2 : bounded (G + 2) b) by (eapply bounded_mono; [|exact S2]; lia).
  pose proof (bounded_add (G + 2) _ _ ltac:(lia) B1 B2) as [F3 _].
  destruct A1 as [Fa Ea Ta Ga], A2 as [Fb Eb Tb Gb].
  assert (Ev : B2R (Bplus mode_NE a b) = rnd64 (B2R a + B2R b)).
  { apply plus64; auto. apply (Rle_lt_trans _ (bpow radix2 (G + 2 + 1))); [|apply bpow_lt; lia].
    apply rnd_bounded; [lia|]. destruct B1 as [_ B1], B2 as [_ B2]. rewrite (bpow2_S (G + 2)).
    eapply Rle_trans; [apply Rabs_triang|]. lra. }
  assert (GD : bpow radix2 D1 <= bpow radix2 D) by (apply bpow2_le; lia).
  assert (GD2 : bpow radix2 D2 <= bpow radix2 D) by (apply bpow2_le; lia).
  assert (GG : bpow radix2 G1 <= bpow radix2 G) by (apply bpow2_le; lia).
  assert (GG2 : bpow radix2 G2 <= bpow radix2 G) by (apply bpow2_le; lia).
  pose proof (eps_mono k1 (Nat.max k1 k2) ltac:(lia)). pose proof (eps_mono k2 (Nat.max k1 k2) ltac:(lia)).
  pose proof (Rabs_pos t1). pose proof (Rabs_pos t2).
  assert (T3 : Rabs (t1 + t2) <= g1 + g2) by (eapply Rle_trans; [apply Rabs_triang|]; lra).
  split; [exact F3| |exact T3|rewrite bpow2_S; lra].
  rewrite Ev. eapply Rle_trans; [apply (round_step _ (Nat.max k1 k2) _ (g1 + g2) (2 * bpow radix2 D))|].
  - pose proof (bpow_gt_0 radix2 D). lra.
  - replace (B2R a + B2R b - (t1 + t2)) with ((B2R a - t1) + (B2R b - t2)) by ring.
    assert (eps k1 * g1 <= eps (Nat.max k1 k2) * g1) by (apply Rmult_le_compat_r; lra).
    assert (eps k2 * g2 <= eps (Nat.max k1 k2) * g2) by (apply Rmult_le_compat_r; lra).
    eapply Rle_trans; [apply Rabs_triang|]. lra.
  - exact T3.
  - apply Rplus_le_compat_l. replace (D + 3)%Z with (D + 1 + 1 + 1)%Z by ring. rewrite !bpow2_S.
    assert (eta64 <= bpow radix2 D) by (apply bpow2_le; lia). pose proof (bpow_gt_0 radix2 D). lra.
Qed.

Lemma ap_mul k1 G1 D1 a t1 g1 k2 G2 D2 b t2 g2 :
  (k1 <= 1000)%nat -> (k2 <= 1000)%nat -> (0 <= G1)%Z -> (0 <= G2)%Z -> (G1 + G2 <= 900)%Z ->
  (-1075 <= D1 <= 0)%Z -> (-1075 <= D2 <= 0)%Z ->
  ap k1 G1 D1 a t1 g1 -> ap k2 G2 D2 b t2 g2 ->
  ap (S (k1 + k2)) (G1 + G2) (Z.max (D1 + G2) (D2 + G1) + 5) (Bmult mode_NE a b) (t1 * t2) (g1 * g2).
Proof.
  intros K1 K2 R1 R2 R3 Q1 Q2 A1 A2.
  pose proof (ap_size k1 G1 D1 a t1 g1 K1 ltac:(lia) A1) as S1.
  pose proof (ap_size k2 G2 D2 b t2 g2 K2 ltac:(lia) A2) as S2.
  set (D := Z.max (D1 + G2) (D2 + G1)) in *.
  pose proof (bounded_mul (G1 + 2) (G2 + 2) _ _ ltac:(lia) S1 S2) as [F3 _].
  destruct A1 as [Fa Ea Ta Ga], A2 as [Fb Eb Tb Gb].
  assert (Ev : B2R (Bmult mode_NE a b) = rnd64 (B2R a * B2R b)).
  { pose proof (Bmult_correct 53 1024 _ _ mode_NE a b) as Q. rewrite Rlt_bool_true in Q; [apply Q|].
    apply (Rle_lt_trans _ (bpow radix2 (G1 + 2 + (G2 + 2)))); [|apply bpow_lt; lia].
    apply rnd_bounded; [lia|]. rewrite bpow_plus, Rabs_mult. destruct S1 as [_ S1], S2 as [_ S2].
    apply Rmult_le_compat; try apply Rabs_pos; assumption. }
  pose proof (Rabs_pos t1) as P1. pose proof (Rabs_pos t2) as P2.
  assert (T3 : Rabs (t1 * t2) <= g1 * g2) by (rewrite Rabs_mult; apply Rmult_le_compat; lra).
  assert (X1 : bpow radix2 D1 * bpow radix2 G2 <= bpow radix2 D) by (rewrite <- bpow_plus; apply bpow2_le; lia).
  assert (X2 : bpow radix2 D2 * bpow radix2 G1 <= bpow radix2 D) by (rewrite <- bpow_plus; apply bpow2_le; lia).
  assert (X3 : bpow radix2 D1 * bpow radix2 D2 <= bpow radix2 D) by (rewrite <- bpow_plus; apply bpow2_le; lia).
  pose proof (bpow_gt_0 radix2 D1) as Z1. pose proof (bpow_gt_0 radix2 D2) as Z2. pose proof (bpow_gt_0 radix2 D) as Z3.
  pose proof (eps_pos k1) as E1. pose proof (eps_pos k2) as E2. pose proof (eps_1 k1 K1) as E1'. pose proof (eps_1 k2 K2) as E2'.
  split; [exact F3| |exact T3|rewrite bpow_plus; apply Rmult_le_compat; lra].
  rewrite Ev. eapply Rle_trans; [apply (round_step _ (k1 + k2) _ (g1 * g2) (5 * bpow radix2 D))|].
  - lra.
  - set (da := B2R a - t1) in *. set (db := B2R b - t2) in *.
    replace (B2R a * B2R b - t1 * t2) with (da * t2 + t1 * db + da * db) by (unfold da, db; ring).
    assert (Y1 : Rabs (da * t2) <= (eps k1 * g1 + bpow radix2 D1) * g2)
      by (rewrite Rabs_mult; apply Rmult_le_compat; auto using Rabs_pos).
    assert (Y2 : Rabs (t1 * db) <= g1 * (eps k2 * g2 + bpow radix2 D2))
      by (rewrite Rabs_mult; apply Rmult_le_compat; auto using Rabs_pos).
    assert (Y3 : Rabs (da * db) <= (eps k1 * g1 + bpow radix2 D1) * (eps k2 * g2 + bpow radix2 D2))
      by (rewrite Rabs_mult; apply Rmult_le_compat; auto using Rabs_pos).
    assert (V1 : bpow radix2 D1 * g2 <= bpow radix2 D).
    { eapply Rle_trans; [|exact X1]. apply Rmult_le_compat_l; lra. }
    assert (V2 : g1 * bpow radix2 D2 <= bpow radix2 D).
    { eapply Rle_trans; [|exact X2]. rewrite Rmult_comm. apply Rmult_le_compat_l; lra. }
    assert (V3 : eps k1 * (g1 * bpow radix2 D2) <= bpow radix2 D).
    { rewrite <- (Rmult_1_l (bpow radix2 D)). apply Rmult_le_compat; try lra. apply Rmult_le_pos; lra. }
    assert (V4 : eps k2 * (bpow radix2 D1 * g2) <= bpow radix2 D).
    { rewrite <- (Rmult_1_l (bpow radix2 D)). apply Rmult_le_compat; try lra. apply Rmult_le_pos; lra. }
    rewrite eps_add.
    eapply Rle_trans; [apply Rabs_triang|]. eapply Rle_trans; [apply Rplus_le_compat_r, Rabs_triang|].
    replace ((eps k1 * g1 + bpow radix2 D1) * (eps k2 * g2 + bpow radix2 D2)) with
      (eps k1 * eps k2 * (g1 * g2) + eps k1 * (g1 * bpow radix2 D2) + eps k2 * (bpow radix2 D1 * g2) + bpow radix2 D1 * bpow radix2 D2) in Y3 by ring.
    lra.
  - exact T3.
  - apply Rplus_le_compat_l. replace (D + 5)%Z with (D + 1 + 1 + 1 + 1 + 1)%Z by ring. rewrite !bpow2_S.
    assert (eta64 <= bpow radix2 D) by (apply bpow2_le; lia). pose proof (bpow_gt_0 radix2 D). lra.
Qed.

(** An exact input. *)
Lemma ap_in (a : f64) G : bounded G a -> ap 0 G (-1075) a (B2R a) (Rabs (B2R a)).
Proof.
  intros [F B]. split; [exact F| |apply Rle_refl|exact B]. rewrite Rminus_eq_0, Rabs_R0. unfold eps. simpl (_ ^ 0).
  pose proof eta64_pos. unfold eta64 in *. lra.
Qed.
Lemma ap_zero G : ap 0 G (-1075) (B754_zero false) 0 0.
Proof.
  split; [reflexivity| |rewrite Rabs_R0; lra|left; apply bpow_gt_0]. cbn [B2R]. rewrite Rminus_eq_0, Rabs_R0. unfold eps. simpl (_ ^ 0).
  pose proof eta64_pos. unfold eta64 in *. lra.
Qed.
