(** Runs of the three-dimensional aircraft in binary64 (C114). *)
From Coq Require Import String ZArith Reals Bool List Lra Lia Psatz.
From Flocq Require Import Core.Core IEEE754.BinarySingleNaN.
From Verif Require Import PyBase Num Arr BaseModel Dubins Spec SpecCwh NumOrdLemmas ArrLemmas BaseLemmas BaseLemmas2 BaseLemmas3 LimLemmas
  Float64 F64Wrap F64Bound F64Err ConvLemmas SpecRound RoundCwh SpecLin LinRound WrapErr SpecFly SpecFly3 FlyRound FlyRun Fly3Round.
Import List ListNotations.
Local Open Scope R_scope.

(** Products of two numbers of at most 1. *)
Lemma prod_near a b a' b' ea eb : Rabs a' <= 1 -> Rabs b <= 1 -> Rabs (a - a') <= ea -> Rabs (b - b') <= eb ->
  Rabs (a * b - a' * b') <= ea + eb.
Proof.
  intros A B C D. replace (a * b - a' * b') with ((a - a') * b + a' * (b - b')) by ring.
  eapply Rle_trans; [apply Rabs_triang|]. rewrite !Rabs_mult. apply Rplus_le_compat.
  - rewrite <- (Rmult_1_r ea). apply Rmult_le_compat; auto using Rabs_pos.
  - rewrite <- (Rmult_1_l eb). apply Rmult_le_compat; auto using Rabs_pos.
Qed.
Lemma prod_one a b : Rabs a <= 1 -> Rabs b <= 1 -> Rabs (a * b) <= 1.
Proof. intros A B. rewrite Rabs_mult, <- (Rmult_1_r 1). apply Rmult_le_compat; auto using Rabs_pos. Qed.

(** The heading rate depends on speed and roll with a bounded sensitivity. *)
Lemma turn_size m c v ro : 0 < m -> 0 < c -> m <= v -> c <= cos ro -> 32.17 / Rabs v * Rabs (tan ro) <= turn_max m c.
Proof.
  intros Hm Hc Hv Hr. pose proof (tan_bound ro c Hc Hr) as T. rewrite (Rabs_pos_eq v) by lra. unfold turn_max.
  replace (32.17 / (m * c)) with (32.17 / m * / c) by (field; lra).
  assert (/ v <= / m) by (apply Rinv_le_contravar; lra). assert (0 < / v) by (apply Rinv_0_lt_compat; lra).
  apply Rmult_le_compat; auto using Rabs_pos; unfold Rdiv; [apply Rmult_le_pos; lra|apply Rmult_le_compat_l; lra].
Qed.
Lemma turn_near m c v v' ro ro' e : 0 < m -> 0 < c -> m <= v -> m <= v' -> c <= cos ro -> c <= cos ro' ->
  Rabs (v - v') <= e -> Rabs (ro - ro') <= e -> Rabs (32.17 / v * tan ro - 32.17 / v' * tan ro') <= turn_lip m c * e.
Proof.
  intros Hm Hc Hv Hv' Hr Hr' Ev Er. pose proof (tan_bound ro c Hc Hr) as T. pose proof (tan_close ro ro' c Hc Hr Hr') as K.
  assert (0 < / m) by (apply Rinv_0_lt_compat; lra). assert (0 < / c) by (apply Rinv_0_lt_compat; lra).
  assert (I1 : / v <= / m) by (apply Rinv_le_contravar; lra). assert (I2 : / v' <= / m) by (apply Rinv_le_contravar; lra).
  assert (0 < / v) by (apply Rinv_0_lt_compat; lra). assert (0 < / v') by (apply Rinv_0_lt_compat; lra).
  assert (D : Rabs (/ v - / v') <= / m * / m * e).
  { replace (/ v - / v') with (- (v - v') * (/ v * / v')) by (field; lra). rewrite Rabs_mult, Rabs_Ropp, (Rabs_pos_eq (/ v * / v')) by (apply Rmult_le_pos; lra).
    rewrite (Rmult_comm (/ m * / m)). apply Rmult_le_compat; auto using Rabs_pos; [apply Rmult_le_pos; lra|apply Rmult_le_compat; lra]. }
  assert (K2 : Rabs (tan ro - tan ro') <= / c * / c * e).
  { eapply Rle_trans; [exact K|]. unfold Rdiv. rewrite Rinv_mult, (Rmult_comm (/ c * / c)). apply Rmult_le_compat_r; [apply Rmult_le_pos; lra|exact Er]. }
  replace (32.17 / v * tan ro - 32.17 / v' * tan ro') with (32.17 * ((/ v - / v') * tan ro + / v' * (tan ro - tan ro'))) by (field; lra).
  rewrite Rabs_mult, (Rabs_pos_eq 32.17) by lra.
  replace (turn_lip m c * e) with (32.17 * (/ m * / m * e * / c + / m * (/ c * / c * e))) by (unfold turn_lip; field; lra).
  apply Rmult_le_compat_l; [lra|]. eapply Rle_trans; [apply Rabs_triang|]. rewrite !Rabs_mult, (Rabs_pos_eq (/ v')) by lra.
  apply Rplus_le_compat; apply Rmult_le_compat; auto using Rabs_pos; lra.
Qed.
Lemma cos_small A c t : A + 1 / 1024 <= PI -> c <= cos (A + 1 / 1024) -> Rabs t <= A + 1 / 1024 -> c <= cos t.
Proof.
  intros HA Hc Ht. eapply Rle_trans; [exact Hc|]. destruct (Rcase_abs t) as [N|P].
  - rewrite <- (cos_neg t). rewrite Rabs_left in Ht by exact N. apply cos_decr_1; lra.
  - rewrite Rabs_right in Ht by exact P. apply cos_decr_1; lra.
Qed.
Lemma angle_near_eq E a b t : b = t -> angle_near E a b -> angle_near E a t.
Proof. intros ->. auto. Qed.

Section F.
  Variable lm : libm.
  Local Hint Extern 0 (Num f64) => exact (F64 lm) : typeclass_instances.

  Section R.
    Variables (w : world f64) (v_min v_max g_min g_max r_min r_max gr_min gr_max rr_min rr_max acc_min acc_max : f64)
      (samples : Z) (B H V C X A m c D Q : R) (N : nat).
    Hypotheses (Ac : accurate lm) (At : accurate_tan lm) (Sa : (samples <= 0)%Z)
      (Ff : Forall (fun a : f64 => is_finite (f64_f32 a) = true) [v_min; v_max; g_min; g_max; r_min; r_max])
      (Wc : Forall (within 100) [gr_min; gr_max; rr_min; rr_max; acc_min; acc_max])
      (SV : Forall (fun a : f64 => m <= B2R (f64_f32 a) <= V) [v_min; v_max])
      (SG : Forall (fun a : f64 => Rabs (B2R (f64_f32 a)) <= 2) [g_min; g_max])
      (SR : Forall (fun a : f64 => Rabs (B2R (f64_f32 a)) <= A) [r_min; r_max])
      (SC : Forall (fun a : f64 => Rabs (B2R a) <= C) [gr_min; gr_max; rr_min; rr_max; acc_min; acc_max])
      (M0 : bpow radix2 (-100) <= m) (c0 : bpow radix2 (-100) <= c) (Api : A + 1 / 1024 <= PI) (Ca : c <= cos (A + 1 / 1024))
      (H0 : 0 <= H) (X0 : 0 <= X) (Bx : X + INR N * (H * V) + 1 <= B) (B100 : B <= bpow radix2 99) (V100 : V <= bpow radix2 99)
      (D0 : 0 <= D) (Q0 : 0 <= Q) (Er : fly3_error B H V C m c N + (D + INR N * (H * V * Q)) <= 1).
    Let f (a : f64) := B2R (f64_f32 a).
    Let L := {| g_lo := f g_min; g_hi := f g_max; b_lo := f r_min; b_hi := f r_max; s_lo := f v_min; s_hi := f v_max;
                gr_lo := B2R gr_min; gr_hi := B2R gr_max; br_lo := B2R rr_min; br_hi := B2R rr_max;
                ac_lo := B2R acc_min; ac_hi := B2R acc_max |}.
    Let W := turn_max m c.
    Let T := turn_lip m c.
    Let r := step_error3 B H V W C.
    Let eh (i : nat) := INR i * (1 + H * T * INR i) * r + Q.
    (* [D] and [Q]: errors of the initial position and heading *)
    Let ep (i : nat) := fly3_error B H V C m c i + (D + INR i * (H * V * Q)).

    Definition fly3_inv (i : nat) (e : entity f64) (p : pose3) : Prop :=
      e_dyn e = dubins3d_dyn G_FT v_min v_max g_min g_max r_min r_max samples "Euler" /\
      e_cmin e = A1 [gr_min; rr_min; acc_min] /\ e_cmax e = A1 [gr_max; rr_max; acc_max] /\
      Rabs (qx p) <= X + INR i * (H * V) /\ Rabs (qy p) <= X + INR i * (H * V) /\ Rabs (qz p) <= X + INR i * (H * V) /\
      m <= qv p <= V /\ Rabs (qr p) <= A /\
      exists x y z hd ga ro v, e_state e = A1 [x; y; z; hd; ga; ro; v] /\ Forall (fun a : f64 => is_finite a = true) [x; y; z; hd; ga; ro; v] /\
        Rabs (B2R x - qx p) <= ep i /\ Rabs (B2R y - qy p) <= ep i /\
        Rabs (B2R z - qz p) <= ep i /\
        angle_near (eh i) (B2R hd) (qh p) /\ Rabs (B2R ga - qg p) <= INR i * r /\ Rabs (B2R ro - qr p) <= INR i * r /\
        Rabs (B2R v - qv p) <= INR i * r /\
        m <= B2R v <= V /\ Rabs (B2R ro) <= A + 1 / 1024 /\ Rabs (B2R ga) <= 3 /\ Rabs (B2R hd) <= B + 4.

    Lemma m0' : 0 < m.
    Proof. pose proof (bpow_gt_0 radix2 (-100)). lra. Qed.
    Lemma c0' : 0 < c.
    Proof. pose proof (bpow_gt_0 radix2 (-100)). lra. Qed.
    Lemma V0 : 0 < V.
    Proof. pose proof m0'. apply Forall_cons_iff in SV as [V1 _]. lra. Qed.
    Lemma C0 : 0 <= C.
    Proof. apply Forall_cons_iff in SC as [V1 _]. eapply Rle_trans; [apply Rabs_pos|exact V1]. Qed.
    Lemma A0 : 0 <= A < 2.
    Proof.
      apply Forall_cons_iff in SR as [V1 _]. split; [eapply Rle_trans; [apply Rabs_pos|exact V1]|].
      assert (0 <= A) by (eapply Rle_trans; [apply Rabs_pos|exact V1]).
      destruct (Rlt_le_dec A 2) as [|N2]; [assumption|]. exfalso. pose proof c0'.
      assert (cos (A + 1 / 1024) <= cos (PI / 2)).
      { pose proof PI_4. apply cos_decr_1; lra. }
      rewrite cos_PI2 in *. lra.
    Qed.
    Lemma W0 : 0 <= W.
    Proof.
      unfold W, turn_max, Rdiv. pose proof m0'. pose proof c0'. apply Rmult_le_pos; [lra|]. left. apply Rinv_0_lt_compat. apply Rmult_lt_0_compat; lra.
    Qed.
    Lemma T0 : 0 <= T.
    Proof.
      unfold T, turn_lip. fold (turn_max m c). fold W. pose proof W0. pose proof m0'. pose proof c0'.
      assert (0 < / m) by (apply Rinv_0_lt_compat; lra). assert (0 < / c) by (apply Rinv_0_lt_compat; lra). apply Rmult_le_pos; lra.
    Qed.
    Lemma HV0 : 0 <= H * V.
    Proof. apply Rmult_le_pos; [exact H0|left; apply V0]. Qed.
    Lemma B0 : 1 <= B.
    Proof. pose proof HV0. pose proof (pos_INR N). assert (0 <= INR N * (H * V)) by (apply Rmult_le_pos; lra). lra. Qed.
    Lemma r0 : 0 <= r.
    Proof.
      unfold r, step_error3. pose proof V0. pose proof W0. pose proof C0. pose proof B0.
      assert (0 <= H * (V + W + C)) by (apply Rmult_le_pos; lra). pose proof (bpow_ge_0 radix2 (-699)). pose proof (bpow_ge_0 radix2 (-47)).
      assert (0 <= bpow radix2 (-47) * (B + V + H * (V + W + C) + 13)) by (apply Rmult_le_pos; lra). lra.
    Qed.
    Lemma coef : 0 <= H * (1 + 2 * V + T) /\ 0 <= H * H * V * T.
    Proof.
      pose proof V0. pose proof T0. split; [apply Rmult_le_pos; lra|].
      apply Rmult_le_pos; [|lra]. apply Rmult_le_pos; [|lra]. apply Rmult_le_pos; lra.
    Qed.
    Lemma err_mono i : (i <= N)%nat -> ep i <= 1.
    Proof.
      intros Hi. eapply Rle_trans; [|exact Er]. unfold ep, fly3_error. fold W T. fold r. apply le_INR in Hi. pose proof (pos_INR i).
      assert (HVQ : 0 <= H * V * Q) by (apply Rmult_le_pos; [apply HV0|exact Q0]).
      apply Rplus_le_compat; [|apply Rplus_le_compat_l, Rmult_le_compat_r; assumption].
      destruct coef as [a0 b0]. set (a := H * (1 + 2 * V + T)) in *. set (b := H * H * V * T) in *. clearbody a b.
      apply Rmult_le_compat_r; [exact r0|].
      assert (0 <= a * INR i) by (apply Rmult_le_pos; lra). assert (0 <= INR i * INR i) by (apply Rmult_le_pos; lra).
      assert (0 <= b * (INR i * INR i)) by (apply Rmult_le_pos; lra).
      apply Rmult_le_compat; try lra.
      apply Rplus_le_compat; [apply Rplus_le_compat_l, Rmult_le_compat_l; lra|].
      apply Rmult_le_compat_l; [lra|]. apply Rmult_le_compat; lra.
    Qed.
    Lemma err_step i : ep i + r + H * (INR i * r + V * (eh i + INR i * r)) <= ep (S i).
    Proof.
      unfold ep, fly3_error, eh. fold W T. fold r. rewrite S_INR. pose proof (pos_INR i) as I0. pose proof r0 as R0. pose proof V0 as v0. pose proof T0 as t0.
      set (n := INR i) in *.
      replace (n * (1 + H * (1 + 2 * V + T) * n + H * H * V * T * (n * n)) * r + (D + n * (H * V * Q)) + r + H * (n * r + V * (n * (1 + H * T * n) * r + Q + n * r)))
        with ((n * (1 + H * (1 + 2 * V + T) * n + H * H * V * T * (n * n)) + 1 + H * (1 + 2 * V) * n + H * H * V * T * (n * n)) * r + (D + (n + 1) * (H * V * Q))) by ring.
      apply Rplus_le_compat_r, Rmult_le_compat_r; [exact R0|].
      assert (0 <= H * T) by (apply Rmult_le_pos; lra). assert (0 <= H * V) by apply HV0.
      assert (0 <= H * V * (H * T)) by (apply Rmult_le_pos; lra).
      replace (H * (1 + 2 * V + T)) with (H + 2 * (H * V) + H * T) by ring. replace (H * (1 + 2 * V)) with (H + 2 * (H * V)) by ring.
      replace (H * H * V * T) with (H * V * (H * T)) by ring.
      set (b := H * V * (H * T)) in *. set (q := H * T) in *. set (u := H * V) in *. clearbody b q u n.
      assert (0 <= b * n) by (apply Rmult_le_pos; lra). assert (0 <= b * (n * n)) by (apply Rmult_le_pos; [lra|apply Rmult_le_pos; lra]).
      assert (0 <= q * n) by (apply Rmult_le_pos; lra). assert (0 <= u * n) by (apply Rmult_le_pos; lra). assert (0 <= H * n) by (apply Rmult_le_pos; lra).
      apply Rminus_le.
      replace (n * (1 + (H + 2 * u + q) * n + b * (n * n)) + 1 + (H + 2 * u) * n + b * (n * n) -
        (n + 1) * (1 + (H + 2 * u + q) * (n + 1) + b * ((n + 1) * (n + 1))))
        with (- (H * n + 2 * (u * n) + 2 * (q * n) + (H + 2 * u + q) + 2 * (b * (n * n)) + 3 * (b * n) + b)) by ring. lra.
    Qed.
    Lemma eh_step i : eh i + r + H * (T * (INR i * r)) <= eh (S i).
    Proof.
      unfold eh. rewrite S_INR. pose proof (pos_INR i) as I0. pose proof r0 as R0. pose proof T0 as t0. set (n := INR i) in *.
      replace (n * (1 + H * T * n) * r + Q + r + H * (T * (n * r))) with ((n * (1 + H * T * n) + 1 + H * T * n) * r + Q) by ring.
      apply Rplus_le_compat_r, Rmult_le_compat_r; [exact R0|]. assert (0 <= H * T) by (apply Rmult_le_pos; lra). set (q := H * T) in *. clearbody q n.
      assert (0 <= q * n) by (apply Rmult_le_pos; lra). apply Rminus_le.
      replace (n * (1 + q * n) + 1 + q * n - (n + 1) * (1 + q * (n + 1))) with (- (q * n + q)) by ring. lra.
    Qed.
    Lemma rnd_le z : z <= B + V + H * (V + W + C) + 13 -> bpow radix2 (-47) * z + bpow radix2 (-699) <= r.
    Proof. intros Z. unfold r, step_error3. apply Rplus_le_compat_r, Rmult_le_compat_l; [apply bpow_ge_0|exact Z]. Qed.
    Lemma rnd_le' z : 0 <= z -> z <= B + V + H * (V + W + C) + 13 -> bpow radix2 (-48) * z + bpow radix2 (-700) <= r.
    Proof.
      intros Z0 Z. eapply Rle_trans; [|exact (rnd_le z Z)]. apply Rplus_le_compat; [apply Rmult_le_compat_r; [exact Z0|]|]; apply bpow_le; lia.
    Qed.

    Lemma fly3_step i e p (h gr rr acc : f64) : (i < N)%nat -> fly3_inv i e p -> within 100 h -> 0 <= B2R h <= H ->
      Forall (fun a : f64 => is_finite a = true) [gr; rr; acc] ->
      let o := entity_step w e h (AArr (A1 [gr; rr; acc])) in
      o_res o = Ok tt /\ fly3_inv (S i) (o_entity o) (fly31 L (B2R h) (B2R gr) (B2R rr) (B2R acc) p).
    Proof.
      intros Hi (Ed & E1 & E2 & Px & Py & Pz & Pv & Pr & x & y & z & hd & ga & ro & v & Es & Fs & Dx & Dy & Dz & Dh & Dg & Dr & Dv & Sv & Sr & Sg & Sh) Wh Hh Fu o.
      pose proof (err_mono i ltac:(lia)) as Ei. pose proof HV0 as HV. pose proof V0 as V0'. pose proof W0 as W0'. pose proof C0 as C0'. pose proof m0' as m1. pose proof c0' as c1.
      pose proof A0 as [A1' A2']. pose proof T0 as T0'. pose proof B0 as B0'. pose proof r0 as r0'. pose proof (pos_INR i) as I0.
      apply Forall_cons_iff in Fs as [Fx Fs]. apply Forall_cons_iff in Fs as [Fy Fs]. apply Forall_cons_iff in Fs as [Fz Fs].
      apply Forall_cons_iff in Fs as [Fhd Fs]. apply Forall_cons_iff in Fs as [Fga Fs]. apply Forall_cons_iff in Fs as [Fro Fs].
      apply Forall_cons_iff in Fs as [Fv _].
      pose proof SV as SV'. apply Forall_cons_iff in SV' as [SV1 SV']. apply Forall_cons_iff in SV' as [SV2 _].
      pose proof SG as SG'. apply Forall_cons_iff in SG' as [SG1 SG']. apply Forall_cons_iff in SG' as [SG2 _].
      pose proof SR as SR'. apply Forall_cons_iff in SR' as [SR1 SR']. apply Forall_cons_iff in SR' as [SR2 _].
      pose proof SC as SC'. apply Forall_cons_iff in SC' as [SC1 SC']. apply Forall_cons_iff in SC' as [SC2 SC']. apply Forall_cons_iff in SC' as [SC3 SC'].
      apply Forall_cons_iff in SC' as [SC4 SC']. apply Forall_cons_iff in SC' as [SC5 SC']. apply Forall_cons_iff in SC' as [SC6 _].
      assert (Ni : INR i * (H * V) + H * V <= INR N * (H * V)).
      { assert (INR i + 1 <= INR N) by (rewrite <- S_INR; apply le_INR; lia).
        replace (INR i * (H * V) + H * V) with ((INR i + 1) * (H * V)) by ring. apply Rmult_le_compat_r; lra. }
      assert (Bd : forall a b, Rabs (a - b) <= 1 -> Rabs b <= X + INR i * (H * V) -> Rabs a <= B).
      { intros a b P P'. replace a with ((a - b) + b) by ring. eapply Rle_trans; [apply Rabs_triang|]. lra. }
      pose proof (Bd _ _ (Rle_trans _ _ _ Dx Ei) Px) as Bx'. pose proof (Bd _ _ (Rle_trans _ _ _ Dy Ei) Py) as By'. pose proof (Bd _ _ (Rle_trans _ _ _ Dz Ei) Pz) as Bz'.
      assert (T2 : 2 * bpow radix2 99 = bpow radix2 100) by (rewrite <- bpow2_S; reflexivity).
      assert (T4 : 4 <= bpow radix2 99) by (apply (bpow_le radix2 2); lia).
      assert (Av' : Rabs (B2R v) <= V) by (apply Rabs_le; lra).
      assert (Ws : Forall (within 100) [x; y; z; hd; ga; ro; v]).
      { repeat (constructor; [split; [assumption|lra]|]). constructor. }
      pose proof (cos_small A c (B2R ro) Api Ca Sr) as Cro.
      assert (Cqr : c <= cos (qr p)) by (apply (cos_small A); [exact Api|exact Ca|lra]).
      assert (Vm : bpow radix2 (-100) <= Rabs (B2R v)) by (rewrite Rabs_pos_eq; lra).
      assert (Tm : Rabs (tan (B2R ro)) <= bpow radix2 100).
      { eapply Rle_trans; [apply (tan_bound _ c c1 Cro)|].
        replace (bpow radix2 100) with (/ bpow radix2 (-100)) by (rewrite <- bpow_opp; reflexivity). apply Rinv_le_contravar; [apply bpow_gt_0|exact c0]. }
      assert (S2 : Forall (fun a : f64 => Rabs (B2R (f64_f32 a)) <= 2) [g_min; g_max; r_min; r_max]).
      { constructor; [exact SG1|]. constructor; [exact SG2|]. constructor; [lra|]. constructor; [lra|constructor]. }
      destruct (fly3_euler lm w e v_min v_max g_min g_max r_min r_max samples gr_min gr_max rr_min rr_max acc_min acc_max h x y z hd ga ro v gr rr acc
        Ac At Ed Sa E1 E2 Ff S2 Wc Wh Ws Vm Tm Fu Es)
        as (x' & y' & z' & hd' & ga' & ro' & v' & R1 & R2 & [Fx' Ax] & [Fy' Ay] & [Fz' Az] & (Fh' & Rh & Nh) & (Fg' & Ag & tg & Eg) & (Fr' & Ar & tr & Err) & [Fv' Av] & tv & Ev).
      fold o in R1, R2. split; [exact R1|].
      pose proof (entity_step_config w e h (AArr (A1 [gr; rr; acc]))) as (K1 & _ & K2 & K3 & _). fold o in K1, K2, K3.
      destruct (angle_cos _ _ _ Dh) as [Cc Cs].
      fold (f v_min) (f v_max) in Av, Ev. fold (f g_min) (f g_max) in Ag, Eg. fold (f r_min) (f r_max) in Ar, Err.
      rewrite clip_stop in Ag, Ar, Av by lra.
      fold (f v_min) in SV1. fold (f v_max) in SV2. fold (f g_min) in SG1. fold (f g_max) in SG2. fold (f r_min) in SR1. fold (f r_max) in SR2.
      assert (Sz1 : Rabs (clipR (B2R gr_min) (B2R gr_max) (B2R gr)) <= C) by (apply clipR_size; assumption).
      assert (Sz2 : Rabs (clipR (B2R rr_min) (B2R rr_max) (B2R rr)) <= C) by (apply clipR_size; assumption).
      assert (Sz3 : Rabs (clipR (B2R acc_min) (B2R acc_max) (B2R acc)) <= C) by (apply clipR_size; assumption).
      set (u1 := clipR (B2R gr_min) (B2R gr_max) (B2R gr)) in *. set (u2 := clipR (B2R rr_min) (B2R rr_max) (B2R rr)) in *.
      set (u3 := clipR (B2R acc_min) (B2R acc_max) (B2R acc)) in *.
      rewrite (Rabs_pos_eq (B2R h)) in Ax, Ay, Az, Nh, Ag, Ar, Av by lra.
      assert (HvV : 0 <= B2R h * Rabs (B2R v) <= H * V) by (split; [apply Rmult_le_pos; [lra|apply Rabs_pos]|apply Rmult_le_compat; auto using Rabs_pos; lra]).
      assert (HuC : forall u, Rabs u <= C -> 0 <= B2R h * Rabs u <= H * C).
      { intros u Hu. split; [apply Rmult_le_pos; [lra|apply Rabs_pos]|apply Rmult_le_compat; auto using Rabs_pos; lra]. }
      pose proof (HuC u1 Sz1) as HuC1. pose proof (HuC u2 Sz2) as HuC2. pose proof (HuC u3 Sz3) as HuC3.
      pose proof (turn_size m c (B2R v) (B2R ro) m1 c1 (proj1 Sv) Cro) as TS. fold W in TS.
      assert (TS0 : 0 <= 32.17 / Rabs (B2R v) * Rabs (tan (B2R ro))).
      { apply Rmult_le_pos; [|apply Rabs_pos]. unfold Rdiv. apply Rmult_le_pos; [lra|]. left. apply Rinv_0_lt_compat. rewrite Rabs_pos_eq; lra. }
      assert (HuW : 0 <= B2R h * (32.17 / Rabs (B2R v) * Rabs (tan (B2R ro))) <= H * W).
      { split; [apply Rmult_le_pos; lra|apply Rmult_le_compat; lra]. }
      assert (HW : 0 <= H * W) by (apply Rmult_le_pos; lra). assert (HC : 0 <= H * C) by (apply Rmult_le_pos; lra).
      assert (Sum : H * (V + W + C) = H * V + H * W + H * C) by ring.
      pose proof (Rabs_pos (B2R x)). pose proof (Rabs_pos (B2R y)). pose proof (Rabs_pos (B2R z)). pose proof (Rabs_pos (B2R hd)).
      pose proof (Rabs_pos (B2R ga)). pose proof (Rabs_pos (B2R ro)). pose proof (Rabs_pos (B2R v)).
      pose proof (rnd_le' (Rabs (B2R x) + B2R h * Rabs (B2R v)) ltac:(lra) ltac:(rewrite Sum; lra)) as Gx.
      pose proof (rnd_le' (Rabs (B2R y) + B2R h * Rabs (B2R v)) ltac:(lra) ltac:(rewrite Sum; lra)) as Gy.
      pose proof (rnd_le' (Rabs (B2R z) + B2R h * Rabs (B2R v)) ltac:(lra) ltac:(rewrite Sum; lra)) as Gz.
      pose proof (rnd_le' (Rabs (B2R ga) + B2R h * Rabs u1 + 8) ltac:(lra) ltac:(rewrite Sum; lra)) as Gg.
      pose proof (rnd_le' (Rabs (B2R ro) + B2R h * Rabs u2 + 8) ltac:(lra) ltac:(rewrite Sum; lra)) as Gr.
      pose proof (rnd_le' (Rabs (B2R v) + B2R h * Rabs u3) ltac:(lra) ltac:(rewrite Sum; lra)) as Gv.
      pose proof (rnd_le (Rabs (B2R hd) + B2R h * (32.17 / Rabs (B2R v) * Rabs (tan (B2R ro))) + 8) ltac:(rewrite Sum; lra)) as Gh.
      apply (fun A => Rle_trans _ _ _ A Gx) in Ax. apply (fun A => Rle_trans _ _ _ A Gy) in Ay. apply (fun A => Rle_trans _ _ _ A Gz) in Az.
      apply (fun A => Rle_trans _ _ _ A Gg) in Ag. apply (fun A => Rle_trans _ _ _ A Gr) in Ar. apply (fun A => Rle_trans _ _ _ A Gv) in Av.
      pose proof (err_step i) as ES. pose proof (eh_step i) as HS.
      pose proof (cos_close (B2R ga) (qg p)) as Cg. pose proof (sin_close (B2R ga) (qg p)) as Sg'.
      apply (fun A => Rle_trans _ _ _ A Dg) in Cg. apply (fun A => Rle_trans _ _ _ A Dg) in Sg'.
      assert (Eh0 : 0 <= eh i).
      { unfold eh. apply Rplus_le_le_0_compat; [|exact Q0]. apply Rmult_le_pos; [|exact r0']. apply Rmult_le_pos; [exact I0|].
        assert (0 <= H * T * INR i) by (apply Rmult_le_pos; [apply Rmult_le_pos; lra|lra]). lra. }
      assert (Aq : Rabs (qv p) <= V) by (apply Rabs_le; lra).
      assert (cosb : forall t, Rabs (cos t) <= 1) by (intros t; apply Rabs_le, COS_bound).
      assert (sinb : forall t, Rabs (sin t) <= 1) by (intros t; apply Rabs_le, SIN_bound).
      assert (Sp : forall a k, Rabs a <= X + INR i * (H * V) -> Rabs k <= 1 -> Rabs (a + B2R h * (qv p * k)) <= X + (INR i + 1) * (H * V)).
      { intros a k P P'. replace (X + (INR i + 1) * (H * V)) with (X + INR i * (H * V) + H * V) by ring.
        eapply Rle_trans; [apply Rabs_triang|]. apply Rplus_le_compat; [exact P|]. rewrite !Rabs_mult, (Rabs_pos_eq (B2R h)) by lra.
        apply Rmult_le_compat; [lra|apply Rmult_le_pos; apply Rabs_pos|lra|]. rewrite <- (Rmult_1_r V). apply Rmult_le_compat; auto using Rabs_pos. }
      assert (Mx : forall a b a' k k' : R, Rabs (a - b) <= ep i -> Rabs (a' - (a + B2R h * (B2R v * k))) <= r ->
        Rabs (k - k') <= eh i + INR i * r -> Rabs k <= 1 -> Rabs (a' - (b + B2R h * (qv p * k'))) <= ep (S i)).
      { intros a b a' k k' P1 P2 P3 P4.
        replace (a' - (b + B2R h * (qv p * k'))) with ((a' - (a + B2R h * (B2R v * k))) + ((a - b) + (B2R h * (B2R v * k) - B2R h * (qv p * k')))) by ring.
        eapply Rle_trans; [apply Rabs_triang|]. eapply Rle_trans; [apply Rplus_le_compat_l, Rabs_triang|].
        pose proof (move_near V (INR i * r) (eh i + INR i * r) (B2R h) H _ _ _ _ Hh Dv P3 P4 Aq). lra. }
      assert (Cl : forall lo hi a b b' u, Rabs (b' - clipR lo hi (a + B2R h * u)) <= r -> Rabs (a - b) <= INR i * r ->
        Rabs (b' - clipR lo hi (b + B2R h * u)) <= (INR i + 1) * r).
      { intros lo hi a b b' u P1 P2. replace (b' - clipR lo hi (b + B2R h * u)) with
          ((b' - clipR lo hi (a + B2R h * u)) + (clipR lo hi (a + B2R h * u) - clipR lo hi (b + B2R h * u))) by ring.
        eapply Rle_trans; [apply Rabs_triang|]. pose proof (clipR_near lo hi (a + B2R h * u) (b + B2R h * u)) as Cn.
        replace (a + B2R h * u - (b + B2R h * u)) with (a - b) in Cn by ring. lra. }
      unfold fly3_inv. cbn [fly31 qx qy qz qh qg qr qv L g_lo g_hi b_lo b_hi s_lo s_hi gr_lo gr_hi br_lo br_hi ac_lo ac_hi]. fold u1 u2 u3.
      split; [congruence|]. split; [congruence|]. split; [congruence|]. rewrite S_INR.
      replace (qv p * cos (qh p) * cos (qg p)) with (qv p * (cos (qh p) * cos (qg p))) by ring.
      replace (qv p * sin (qh p) * cos (qg p)) with (qv p * (sin (qh p) * cos (qg p))) by ring.
      replace (- qv p * sin (qg p)) with (qv p * - sin (qg p)) by ring.
      assert (Neg : forall t, Rabs (- sin t) <= 1) by (intros t; rewrite Rabs_Ropp; apply sinb).
      split; [apply Sp; [exact Px|apply prod_one; auto]|]. split; [apply Sp; [exact Py|apply prod_one; auto]|]. split; [apply Sp; [exact Pz|auto]|].
      assert (Cv : forall t, m <= clipR (f v_min) (f v_max) t <= V) by (intros t; unfold clipR, Rmin, Rmax; repeat destruct (Rle_dec _ _); lra).
      split; [apply Cv|]. split; [apply clipR_size; assumption|].
      exists x', y', z', hd', ga', ro', v'. split; [exact R2|]. split; [repeat (constructor; [assumption|]); constructor|].
      split; [eapply Mx; [exact Dx| |apply prod_near with (1 := cosb _) (2 := cosb _) (3 := Cc) (4 := Cg)|apply prod_one; auto]|].
      { replace (B2R v * (cos (B2R hd) * cos (B2R ga))) with (B2R v * cos (B2R hd) * cos (B2R ga)) by ring. exact Ax. }
      split; [eapply Mx; [exact Dy| |apply prod_near with (1 := sinb _) (2 := cosb _) (3 := Cs) (4 := Cg)|apply prod_one; auto]|].
      { replace (B2R v * (sin (B2R hd) * cos (B2R ga))) with (B2R v * sin (B2R hd) * cos (B2R ga)) by ring. exact Ay. }
      split.
      { apply (Mx (B2R z) (qz p) (B2R z') (- sin (B2R ga))); [exact Dz| | |apply Neg].
        - replace (B2R v * - sin (B2R ga)) with (- B2R v * sin (B2R ga)) by ring. exact Az.
        - replace (- sin (B2R ga) - - sin (qg p)) with (- (sin (B2R ga) - sin (qg p))) by ring. rewrite Rabs_Ropp. lra. }
      split.
      { pose proof (turn_near m c (B2R v) (qv p) (B2R ro) (qr p) (INR i * r) m1 c1 (proj1 Sv) (proj1 Pv) Cro Cqr Dv Dr) as TN. fold T in TN.
        set (wv := 32.17 / B2R v * tan (B2R ro)) in *. set (wq := 32.17 / qv p * tan (qr p)) in *.
        assert (TH : Rabs (B2R h * wv - B2R h * wq) <= H * (T * (INR i * r))).
        { rewrite <- Rmult_minus_distr_l, Rabs_mult, (Rabs_pos_eq (B2R h)) by lra. apply Rmult_le_compat; auto using Rabs_pos; lra. }
        assert (Dh' : angle_near (eh i + H * (T * (INR i * r))) (B2R hd + B2R h * wv) (qh p + B2R h * wq)).
        { destruct Dh as [k K]. exists k.
          replace (B2R hd + B2R h * wv - (qh p + B2R h * wq + 2 * IZR k * PI)) with ((B2R hd - (qh p + 2 * IZR k * PI)) + (B2R h * wv - B2R h * wq)) by ring.
          eapply Rle_trans; [apply Rabs_triang|]. lra. }
        apply (angle_near_eq _ _ (qh p + B2R h * wq + 0)); [ring|]. apply (angle_near_eq _ _ _ (B2R hd + B2R h * wv + 0)) in Nh; [|ring].
        eapply angle_step; [exact Dh'|exact Nh|lra]. }
      split; [apply Cl with (1 := Ag) (2 := Dg)|]. split; [apply Cl with (1 := Ar) (2 := Dr)|]. split; [apply Cl with (1 := Av) (2 := Dv)|].
      split; [rewrite Ev; apply Cv|].
      assert (T47 : bpow radix2 (-47) <= 1 / 1024).
      { apply (Rle_trans _ (bpow radix2 (-10))); [apply bpow_le; lia|simpl; lra]. }
      assert (Nr : forall a b q, Rabs (a - b) <= bpow radix2 (-47) -> Rabs b <= q -> Rabs a <= q + 1 / 1024).
      { intros a b q P1 P2. replace a with ((a - b) + b) by ring. eapply Rle_trans; [apply Rabs_triang|]. lra. }
      split; [eapply Nr; [exact Err|apply clipR_size; assumption]|].
      split; [apply (Rle_trans _ (2 + 1 / 1024)); [eapply Nr; [exact Eg|apply clipR_size; assumption]|lra]|].
      pose proof pi64_bounds. apply Rabs_le. lra.
    Qed.

    Lemma fly3_run l : forall i e p, (i + length l <= N)%nat -> fly3_inv i e p -> Forall (fly3_ok H) l ->
      exists e', run w e (map fly3_act l) = Ok e' /\ fly3_inv (i + length l) e' (fly3 L p (map fly3_num l)).
    Proof.
      induction l as [|[h [[gr rr] acc]] l IH]; intros i e p Li I F.
      - exists e. split; [reflexivity|]. cbn [length map fly3]. rewrite Nat.add_0_r. exact I.
      - apply Forall_cons_iff in F as [(Wh & Hh & Fg & Fr & Fa) F]. cbn [fst snd] in Wh, Hh, Fg, Fr, Fa.
        cbn [length] in Li. destruct (fly3_step i e p h gr rr acc ltac:(lia) I Wh Hh ltac:(repeat constructor; assumption)) as [R1 I'].
        destruct (IH (S i) _ _ ltac:(lia) I' F) as (e' & R & I2). exists e'. split.
        + cbn [map fly3_act run fst snd]. rewrite R1. cbn [bind]. exact R.
        + cbn [length map fly3 fly3_num fst snd]. replace (i + S (length l))%nat with (S i + length l)%nat by lia. exact I2.
    Qed.

    Lemma fly3_inv_flies i e p : fly3_inv i e p -> exists s, e_state e = A1 s /\
      flies3 (fly3_error B H V C m c i + (D + Q + INR i * (H * V * Q))) s p.
    Proof.
      intros (_ & _ & _ & _ & _ & _ & _ & _ & x & y & z & hd & ga & ro & v & Es & Fs & Dx & Dy & Dz & (k & Dh) & Dg & Dr & Dv & _).
      pose proof (pos_INR i) as I0. pose proof r0 as R0. pose proof T0 as t0. pose proof V0 as v0. destruct coef as [_ b0].
      assert (q0 : 0 <= H * T) by (apply Rmult_le_pos; lra). assert (u0 : 0 <= H * (1 + 2 * V)) by (apply Rmult_le_pos; lra).
      assert (Q1 : 0 <= H * T * INR i) by (apply Rmult_le_pos; lra). assert (Q2 : 0 <= H * (1 + 2 * V) * INR i) by (apply Rmult_le_pos; lra).
      assert (Q3 : 0 <= H * H * V * T * (INR i * INR i)) by (apply Rmult_le_pos; [lra|apply Rmult_le_pos; lra]).
      assert (Le1 : INR i * r <= eh i - Q).
      { unfold eh. replace (INR i * (1 + H * T * INR i) * r + Q - Q) with (INR i * (1 + H * T * INR i) * r) by ring. apply Rmult_le_compat_r; [lra|]. rewrite <- (Rmult_1_r (INR i)) at 1. apply Rmult_le_compat_l; lra. }
      assert (Le2 : eh i <= fly3_error B H V C m c i + Q).
      { unfold fly3_error, eh. fold W T. fold r. apply Rplus_le_compat_r, Rmult_le_compat_r; [lra|]. apply Rmult_le_compat_l; [lra|].
        replace (H * (1 + 2 * V + T) * INR i) with (H * (1 + 2 * V) * INR i + H * T * INR i) by ring. lra. }
      assert (Le3 : 0 <= INR i * (H * V * Q)) by (apply Rmult_le_pos; [lra|apply Rmult_le_pos; [apply HV0|exact Q0]]). unfold ep in Dx, Dy, Dz.
      eexists. split; [exact Es|]. cbn [flies3]. split; [exact Fs|]. split; [lra|]. split; [lra|]. split; [lra|].
      split; [exists k; lra|]. split; [lra|]. split; lra.
    Qed.
  End R.
End F.
