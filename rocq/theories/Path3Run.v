(** Binary64 flights of the three-dimensional aircraft against the true path (C120). *)
From Coq Require Import String ZArith Reals Bool List Lra Lia.
From Coquelicot Require Import Coquelicot.
From Flocq Require Import Core.Core IEEE754.BinarySingleNaN.
From Verif Require Import PyBase Num Arr BaseModel Dubins SpecBase SpecCwh XReal XTac ConvLemmas Float64 SpecRound SpecFly FlyRound FlyRun FlyEx SpecFly3 Fly3Round Fly3Run Fly3Ex
  SpecPath PathRun SpecPath3.
Import List ListNotations.
Local Open Scope R_scope.

(** Sensitivity of the heading rate to speed and roll separately. *)
Lemma turn_near2 m c v v' ro ro' e1 e2 : 0 < m -> 0 < c -> m <= v -> m <= v' -> c <= cos ro -> c <= cos ro' ->
  Rabs (v - v') <= e1 -> Rabs (ro - ro') <= e2 -> Rabs (32.17 / v * tan ro - 32.17 / v' * tan ro') <= turn_max m c * (e1 / m + e2 / c).
Proof.
  intros Hm Hc Hv Hv' Hr Hr' Ev Er. pose proof (tan_bound ro c Hc Hr) as T. pose proof (tan_close ro ro' c Hc Hr Hr') as K.
  assert (0 < / m) by (apply Rinv_0_lt_compat; lra). assert (0 < / c) by (apply Rinv_0_lt_compat; lra).
  assert (I1 : / v <= / m) by (apply Rinv_le_contravar; lra). assert (I2 : / v' <= / m) by (apply Rinv_le_contravar; lra).
  assert (0 < / v) by (apply Rinv_0_lt_compat; lra). assert (0 < / v') by (apply Rinv_0_lt_compat; lra).
  assert (D : Rabs (/ v - / v') <= / m * / m * e1).
  { replace (/ v - / v') with (- (v - v') * (/ v * / v')) by (field; lra). rewrite Rabs_mult, Rabs_Ropp, (Rabs_pos_eq (/ v * / v')) by (apply Rmult_le_pos; lra).
    rewrite (Rmult_comm (/ m * / m)). apply Rmult_le_compat; auto using Rabs_pos; [apply Rmult_le_pos; lra|apply Rmult_le_compat; lra]. }
  assert (K2 : Rabs (tan ro - tan ro') <= / c * / c * e2).
  { eapply Rle_trans; [exact K|]. unfold Rdiv. rewrite Rinv_mult, (Rmult_comm (/ c * / c)). apply Rmult_le_compat_r; [apply Rmult_le_pos; lra|exact Er]. }
  replace (32.17 / v * tan ro - 32.17 / v' * tan ro') with (32.17 * ((/ v - / v') * tan ro + / v' * (tan ro - tan ro'))) by (field; lra).
  rewrite Rabs_mult, (Rabs_pos_eq 32.17) by lra.
  replace (turn_max m c * (e1 / m + e2 / c)) with (32.17 * (/ m * / m * e1 * / c + / m * (/ c * / c * e2))) by (unfold turn_max; field; lra).
  apply Rmult_le_compat_l; [lra|]. eapply Rle_trans; [apply Rabs_triang|]. rewrite !Rabs_mult, (Rabs_pos_eq (/ v')) by lra.
  apply Rplus_le_compat; apply Rmult_le_compat; auto using Rabs_pos; lra.
Qed.

Lemma clip_slope lo hi x a q s t : Rabs a <= q -> Rabs (clipR lo hi (x + s * a) - clipR lo hi (x + t * a)) <= q * Rabs (s - t).
Proof.
  intros Q. eapply Rle_trans; [apply clip_lip|]. replace (x + s * a - (x + t * a)) with (a * (s - t)) by ring. rewrite Rabs_mult.
  apply Rmult_le_compat_r; [apply Rabs_pos|exact Q].
Qed.
(** The integral of a bounded function changes at a bounded rate. *)
Lemma int_lip (f : R -> R) K : (forall t, continuous f t) -> (forall t, Rabs (f t) <= K) ->
  forall s t, Rabs (RInt f 0 s - RInt f 0 t) <= K * Rabs (s - t).
Proof.
  intros Cf Bf s t.
  assert (Ex : forall a b, ex_RInt f a b) by (intros; apply (ex_RInt_continuous (V := R_CompleteNormedModule)); intros; apply Cf).
  assert (Ch : RInt f 0 t + RInt f t s = RInt f 0 s) by (apply (RInt_Chasles (V := R_CompleteNormedModule)); apply Ex).
  assert (W : forall a b, a <= b -> Rabs (RInt f a b) <= K * (b - a)).
  { intros a b Hab. rewrite Rmult_comm. apply abs_RInt_le_const; auto. }
  replace (RInt f 0 s - RInt f 0 t) with (RInt f t s) by lra.
  destruct (Rle_lt_dec t s).
  - rewrite (Rabs_pos_eq (s - t)) by lra. apply W. assumption.
  - rewrite <- opp_RInt_swap by apply Ex. unfold opp. cbn. rewrite Rabs_Ropp, (Rabs_left1 (s - t)) by lra.
    replace (- (s - t)) with (t - s) by ring. apply W. lra.
Qed.
(** Products of a speed with two factors of at most 1. *)
Lemma mul_lip (v a b : R -> R) V Kv Ka Kb : 0 <= Kv -> 0 <= Ka -> 0 <= Kb -> (forall t, Rabs (v t) <= V) -> (forall t, Rabs (a t) <= 1) -> (forall t, Rabs (b t) <= 1) ->
  (forall s t, Rabs (v s - v t) <= Kv * Rabs (s - t)) -> (forall s t, Rabs (a s - a t) <= Ka * Rabs (s - t)) -> (forall s t, Rabs (b s - b t) <= Kb * Rabs (s - t)) ->
  forall s t, Rabs (v s * a s * b s - v t * a t * b t) <= (Kv + V * (Ka + Kb)) * Rabs (s - t).
Proof.
  intros P1 P2 P3 BV BA BB LV LA LB s t.
  assert (Ab : forall x y, Rabs (a x * b y) <= 1) by (intros; apply prod_one; auto).
  replace (v s * a s * b s - v t * a t * b t) with ((v s - v t) * (a s * b s) + v t * (a s * b s - a t * b t)) by ring.
  assert (D : Rabs (a s * b s - a t * b t) <= Ka * Rabs (s - t) + Kb * Rabs (s - t)) by (apply prod_near; auto).
  eapply Rle_trans; [apply Rabs_triang|]. rewrite !Rabs_mult, <- (Rabs_mult (a s)).
  assert (D1 : Rabs (v s - v t) * Rabs (a s * b s) <= Kv * Rabs (s - t) * 1) by (apply Rmult_le_compat; auto using Rabs_pos).
  assert (D2 : Rabs (v t) * Rabs (a s * b s - a t * b t) <= V * (Ka * Rabs (s - t) + Kb * Rabs (s - t))) by (apply Rmult_le_compat; auto using Rabs_pos).
  lra.
Qed.
Lemma lip_int (g : R -> R) K h : 0 <= h -> (forall s t, Rabs (g s - g t) <= K * Rabs (s - t)) -> Rabs (RInt g 0 h - h * g 0) <= K * (h * h / 2).
Proof.
  intros Hh Lg. apply int_close; [exact Hh|apply (lip_continuous g _ Lg)|]. intros t Ht. eapply Rle_trans; [apply Lg|]. rewrite Rminus_0_r, Rabs_right by lra. lra.
Qed.
Lemma cos_lip f K : (forall s t, Rabs (f s - f t) <= K * Rabs (s - t)) -> forall s t, Rabs (cos (f s) - cos (f t)) <= K * Rabs (s - t).
Proof. intros Lf s t. eapply Rle_trans; [apply cos_close|apply Lf]. Qed.
Lemma sin_lip f K : (forall s t, Rabs (f s - f t) <= K * Rabs (s - t)) -> forall s t, Rabs (sin (f s) - sin (f t)) <= K * Rabs (s - t).
Proof. intros Lf s t. eapply Rle_trans; [apply sin_close|apply Lf]. Qed.

Section S.
  Variables (L : limits3) (V A m c a q : R).
  Hypotheses (m0 : 0 < m) (c0 : 0 < c) (V1 : m <= s_lo L <= V) (V2 : m <= s_hi L <= V) (B1 : Rabs (b_lo L) <= A) (B2 : Rabs (b_hi L) <= A)
    (Hc : forall t, Rabs t <= A -> c <= cos t)
    (A1 : Rabs (ac_lo L) <= a) (A2 : Rabs (ac_hi L) <= a) (G1 : Rabs (gr_lo L) <= q) (G2 : Rabs (gr_hi L) <= q) (Q1 : Rabs (br_lo L) <= q) (Q2 : Rabs (br_hi L) <= q).

  Lemma aq0 : 0 <= a /\ 0 <= q /\ 0 <= turn_max m c /\ 0 <= turn_jerk m c a q /\ 0 <= V.
  Proof.
    assert (0 <= a) by (eapply Rle_trans; [apply Rabs_pos|exact A1]). assert (0 <= q) by (eapply Rle_trans; [apply Rabs_pos|exact G1]).
    assert (0 < / m) by (apply Rinv_0_lt_compat; lra). assert (0 < / c) by (apply Rinv_0_lt_compat; lra).
    assert (0 <= turn_max m c) by (unfold turn_max, Rdiv; rewrite Rinv_mult; apply Rmult_le_pos; [lra|apply Rmult_le_pos; lra]).
    repeat split; try assumption; [|lra]. unfold turn_jerk, Rdiv. apply Rmult_le_pos; [assumption|]. apply Rplus_le_le_0_compat; apply Rmult_le_pos; lra.
  Qed.

  Section P.
    Variables (ug ub ua : R) (p : pose3).
    Lemma speed_in t : m <= speed_at L ua p t <= V.
    Proof. unfold speed_at, clipR, Rmin, Rmax. repeat destruct (Rle_dec _ _); lra. Qed.
    Lemma speed_abs t : Rabs (speed_at L ua p t) <= V.
    Proof. pose proof (speed_in t). rewrite Rabs_pos_eq; lra. Qed.
    Lemma speed_lip s t : Rabs (speed_at L ua p s - speed_at L ua p t) <= a * Rabs (s - t).
    Proof. apply clip_slope, clip_abs; assumption. Qed.
    Lemma gamma_lip s t : Rabs (gamma_at L ug p s - gamma_at L ug p t) <= q * Rabs (s - t).
    Proof. apply clip_slope, clip_abs; assumption. Qed.
    Lemma roll_lip s t : Rabs (roll_at L ub p s - roll_at L ub p t) <= q * Rabs (s - t).
    Proof. apply clip_slope, clip_abs; assumption. Qed.
    Lemma roll_cos t : c <= cos (roll_at L ub p t).
    Proof. apply Hc, clip_abs; assumption. Qed.
    Definition rate t := 32.17 / speed_at L ua p t * tan (roll_at L ub p t).
    Lemma rate_lip s t : Rabs (rate s - rate t) <= turn_jerk m c a q * Rabs (s - t).
    Proof.
      unfold rate, turn_jerk. eapply Rle_trans; [apply (turn_near2 m c _ _ _ _ (a * Rabs (s - t)) (q * Rabs (s - t)) m0 c0); try apply speed_in; try apply roll_cos; [apply speed_lip|apply roll_lip]|].
      right. unfold Rdiv. ring.
    Qed.
    Lemma rate_size t : Rabs (rate t) <= turn_max m c.
    Proof.
      unfold rate, Rdiv. rewrite !Rabs_mult, Rabs_inv, (Rabs_pos_eq 32.17) by lra. apply (turn_size m c); auto; [apply speed_in|apply roll_cos].
    Qed.
    Lemma head_lip s t : Rabs (head_at L ub ua p s - head_at L ub ua p t) <= turn_max m c * Rabs (s - t).
    Proof.
      unfold head_at. change (fun s0 : R => 32.17 / speed_at L ua p s0 * tan (roll_at L ub p s0)) with rate.
      replace (qh p + RInt rate 0 s - (qh p + RInt rate 0 t)) with (RInt rate 0 s - RInt rate 0 t) by ring.
      apply int_lip; [apply (lip_continuous rate _ rate_lip)|apply rate_size].
    Qed.
    Hypotheses (I1 : g_lo L <= qg p <= g_hi L) (I2 : b_lo L <= qr p <= b_hi L) (I3 : s_lo L <= qv p <= s_hi L).
    Lemma speed_0 : speed_at L ua p 0 = qv p.
    Proof. unfold speed_at. rewrite Rmult_0_l, Rplus_0_r. apply clip_in, I3. Qed.
    Lemma gamma_0 : gamma_at L ug p 0 = qg p.
    Proof. unfold gamma_at. rewrite Rmult_0_l, Rplus_0_r. apply clip_in, I1. Qed.
    Lemma roll_0 : roll_at L ub p 0 = qr p.
    Proof. unfold roll_at. rewrite Rmult_0_l, Rplus_0_r. apply clip_in, I2. Qed.
    Lemma head_0 : head_at L ub ua p 0 = qh p.
    Proof. unfold head_at. rewrite RInt_point. unfold zero. cbn. ring. Qed.
    (** One step of the path against one Euler step from the same pose. *)
    Lemma one3 h : 0 <= h -> let tx := (a + V * (turn_max m c + q)) * (h * h / 2) in
      Rabs (qh (path31 L h ug ub ua p) - qh (fly31 L h ug ub ua p)) <= turn_jerk m c a q * (h * h / 2) /\
      Rabs (qx (path31 L h ug ub ua p) - qx (fly31 L h ug ub ua p)) <= tx /\
      Rabs (qy (path31 L h ug ub ua p) - qy (fly31 L h ug ub ua p)) <= tx /\
      Rabs (qz (path31 L h ug ub ua p) - qz (fly31 L h ug ub ua p)) <= tx.
    Proof.
      intros Hh tx. destruct aq0 as (a0 & q0 & W0 & J0 & V0).
      assert (C1 : forall t, Rabs (cos t) <= 1) by apply cos_one. assert (S1 : forall t, Rabs (sin t) <= 1) by apply sin_one.
      unfold path31, fly31. cbn [qx qy qz qh qg qr qv].
      split; [|split; [|split]].
      - pose proof (lip_int rate _ h Hh rate_lip) as Q. unfold head_at. change (fun s0 : R => 32.17 / speed_at L ua p s0 * tan (roll_at L ub p s0)) with rate.
        replace (32.17 / qv p * tan (qr p)) with (rate 0) by (unfold rate; rewrite speed_0, roll_0; reflexivity).
        replace (qh p + RInt rate 0 h - (qh p + h * rate 0)) with (RInt rate 0 h - h * rate 0) by ring. exact Q.
      - pose proof (lip_int (fun t => speed_at L ua p t * cos (head_at L ub ua p t) * cos (gamma_at L ug p t)) _ h Hh
          (mul_lip _ _ _ V a (turn_max m c) q a0 W0 q0 speed_abs (fun t => C1 _) (fun t => C1 _) speed_lip (cos_lip _ _ head_lip) (cos_lip _ _ gamma_lip))) as Q.
        cbv beta in Q. rewrite speed_0, head_0, gamma_0 in Q. set (I := RInt _ _ _) in *.
        match goal with |- Rabs ?x <= _ => replace x with (I - h * (qv p * cos (qh p) * cos (qg p))) by ring end. exact Q.
      - pose proof (lip_int (fun t => speed_at L ua p t * sin (head_at L ub ua p t) * cos (gamma_at L ug p t)) _ h Hh
          (mul_lip _ _ _ V a (turn_max m c) q a0 W0 q0 speed_abs (fun t => S1 _) (fun t => C1 _) speed_lip (sin_lip _ _ head_lip) (cos_lip _ _ gamma_lip))) as Q.
        cbv beta in Q. rewrite speed_0, head_0, gamma_0 in Q. set (I := RInt _ _ _) in *.
        match goal with |- Rabs ?x <= _ => replace x with (I - h * (qv p * sin (qh p) * cos (qg p))) by ring end. exact Q.
      - pose proof (lip_int (fun t => speed_at L ua p t * (-1) * sin (gamma_at L ug p t)) _ h Hh
          (mul_lip _ (fun _ => -1) _ V a (turn_max m c) q a0 W0 q0 speed_abs (fun t => ltac:(rewrite Rabs_left; lra)) (fun t => S1 _) speed_lip
            (fun s t => ltac:(rewrite Rminus_eq_0, Rabs_R0; apply Rmult_le_pos; [exact W0|apply Rabs_pos])) (sin_lip _ _ gamma_lip))) as Q.
        cbv beta in Q. rewrite speed_0, gamma_0 in Q.
        rewrite (RInt_ext (fun t => - speed_at L ua p t * sin (gamma_at L ug p t)) (fun t => speed_at L ua p t * -1 * sin (gamma_at L ug p t))) by (intros t _; match goal with |- ?x = ?y => change (@eq R x y) end; ring).
        set (I := RInt _ _ _) in *.
        match goal with |- Rabs ?x <= _ => replace x with (I - h * (qv p * -1 * sin (qg p))) by ring end. exact Q.
    Qed.
  End P.

  (** Euler steps and the path from poses with the same flight path angle, roll and speed. *)
  Lemma path3_close H : 0 <= H -> forall l p p' D E, Forall (fun x => 0 <= fst x <= H) l ->
    g_lo L <= qg p <= g_hi L -> b_lo L <= qr p <= b_hi L -> s_lo L <= qv p <= s_hi L ->
    qg p' = qg p -> qr p' = qr p -> qv p' = qv p -> 0 <= D -> Rabs (qh p - qh p') <= D ->
    Rabs (qx p - qx p') <= E -> Rabs (qy p - qy p') <= E -> Rabs (qz p - qz p') <= E ->
    let DD := D + head_error H m c a q (length l) in
    let EE := E + INR (length l) * ((a + V * (turn_max m c + q)) * (H * H / 2) + H * V * DD) in
    qg (path3 L p' l) = qg (fly3 L p l) /\ qr (path3 L p' l) = qr (fly3 L p l) /\ qv (path3 L p' l) = qv (fly3 L p l) /\
    Rabs (qh (fly3 L p l) - qh (path3 L p' l)) <= DD /\
    Rabs (qx (fly3 L p l) - qx (path3 L p' l)) <= EE /\ Rabs (qy (fly3 L p l) - qy (path3 L p' l)) <= EE /\ Rabs (qz (fly3 L p l) - qz (path3 L p' l)) <= EE.
  Proof.
    intros H0. destruct aq0 as (a0 & q0 & W0 & J0 & V0).
    set (th := turn_jerk m c a q * (H * H / 2)). set (tx := (a + V * (turn_max m c + q)) * (H * H / 2)).
    assert (HH : 0 <= H * H / 2) by nra. assert (th0 : 0 <= th) by (apply Rmult_le_pos; lra).
    induction l as [|[h [[ug ub] ua]] l IH]; intros p p' D E F I1 I2 I3 Eg Er Ev D0 Dh Dx Dy Dz.
    - cbn [path3 fly3 length head_error]. unfold head_error. cbn [INR length]. repeat split; auto; lra.
    - inversion F as [|? ? Hh F']; subst. cbn [fst] in Hh. cbn [path3 fly3]. cbv zeta.
      assert (Th : 0 <= h * h / 2 <= H * H / 2) by (split; [nra|]; assert (h * h <= H * H) by (apply Rmult_le_compat; lra); lra).
      destruct (one3 ug ub ua p' ltac:(rewrite Eg; exact I1) ltac:(rewrite Er; exact I2) ltac:(rewrite Ev; exact I3) h (proj1 Hh)) as (Oh & Ox & Oy & Oz). cbv zeta in Ox, Oy, Oz.
      assert (Oh' : Rabs (qh (path31 L h ug ub ua p') - qh (fly31 L h ug ub ua p')) <= th) by (eapply Rle_trans; [exact Oh|apply Rmult_le_compat_l; lra]).
      assert (VW : 0 <= V * (turn_max m c + q)) by (apply Rmult_le_pos; lra).
      assert (Up : (a + V * (turn_max m c + q)) * (h * h / 2) <= tx) by (apply Rmult_le_compat_l; lra).
      assert (Vp : Rabs (qv p) <= V) by (rewrite Rabs_pos_eq; lra).
      assert (hVD : h * (V * D) <= H * V * D) by (rewrite (Rmult_assoc H); apply Rmult_le_compat_r; [apply Rmult_le_pos; lra|lra]).
      assert (Fx : Rabs (qx (fly31 L h ug ub ua p) - qx (fly31 L h ug ub ua p')) <= E + H * V * D).
      { unfold fly31. cbn [qx]. rewrite Eg, Ev.
        replace (qx p + h * (qv p * cos (qh p) * cos (qg p)) - (qx p' + h * (qv p * cos (qh p') * cos (qg p))))
          with ((qx p - qx p') + h * (qv p * ((cos (qh p) - cos (qh p')) * cos (qg p)))) by ring.
        eapply Rle_trans; [apply Rabs_triang|]. apply Rplus_le_compat; [exact Dx|]. eapply Rle_trans; [|exact hVD]. rewrite !Rabs_mult, (Rabs_pos_eq h) by lra.
        apply Rmult_le_compat_l; [lra|]. apply Rmult_le_compat; auto using Rabs_pos; [apply Rmult_le_pos; apply Rabs_pos|].
        rewrite <- (Rmult_1_r D). apply Rmult_le_compat; try apply Rabs_pos; [eapply Rle_trans; [apply cos_close|exact Dh]|apply cos_one]. }
      assert (Fy : Rabs (qy (fly31 L h ug ub ua p) - qy (fly31 L h ug ub ua p')) <= E + H * V * D).
      { unfold fly31. cbn [qy]. rewrite Eg, Ev.
        replace (qy p + h * (qv p * sin (qh p) * cos (qg p)) - (qy p' + h * (qv p * sin (qh p') * cos (qg p))))
          with ((qy p - qy p') + h * (qv p * ((sin (qh p) - sin (qh p')) * cos (qg p)))) by ring.
        eapply Rle_trans; [apply Rabs_triang|]. apply Rplus_le_compat; [exact Dy|]. eapply Rle_trans; [|exact hVD]. rewrite !Rabs_mult, (Rabs_pos_eq h) by lra.
        apply Rmult_le_compat_l; [lra|]. apply Rmult_le_compat; auto using Rabs_pos; [apply Rmult_le_pos; apply Rabs_pos|].
        rewrite <- (Rmult_1_r D). apply Rmult_le_compat; try apply Rabs_pos; [eapply Rle_trans; [apply sin_close|exact Dh]|apply cos_one]. }
      assert (VD0 : 0 <= H * V * D) by (apply Rmult_le_pos; [apply Rmult_le_pos; lra|lra]).
      assert (Fz : Rabs (qz (fly31 L h ug ub ua p) - qz (fly31 L h ug ub ua p')) <= E + H * V * D).
      { unfold fly31. cbn [qz]. rewrite Eg, Ev.
        match goal with |- Rabs ?x <= _ => replace x with (qz p - qz p') by ring end. lra. }
      assert (Fh : Rabs (qh (fly31 L h ug ub ua p) - qh (fly31 L h ug ub ua p')) <= D).
      { unfold fly31. cbn [qh]. rewrite Er, Ev. match goal with |- Rabs ?x <= _ => replace x with (qh p - qh p') by ring end. exact Dh. }
      assert (Tri : forall x y z e1 e2, Rabs (x - y) <= e1 -> Rabs (z - y) <= e2 -> Rabs (x - z) <= e1 + e2).
      { intros x y z e1 e2 X Y. replace (x - z) with ((x - y) + - (z - y)) by ring. eapply Rle_trans; [apply Rabs_triang|]. rewrite Rabs_Ropp. lra. }
      destruct (IH (fly31 L h ug ub ua p) (path31 L h ug ub ua p') (D + th) (E + H * V * D + tx) F') as (R1 & R2 & R3 & R4 & R5 & R6 & R7).
      + apply LimLemmas.clipR_between. lra.
      + apply LimLemmas.clipR_between. lra.
      + apply LimLemmas.clipR_between. lra.
      + unfold path31, fly31, gamma_at. cbn [qg]. rewrite Eg. reflexivity.
      + unfold path31, fly31, roll_at. cbn [qr]. rewrite Er. reflexivity.
      + unfold path31, fly31, speed_at. cbn [qv]. rewrite Ev. reflexivity.
      + lra.
      + exact (Tri _ _ _ _ _ Fh Oh').
      + refine (Tri _ _ _ _ _ Fx (Rle_trans _ _ _ Ox Up)).
      + refine (Tri _ _ _ _ _ Fy (Rle_trans _ _ _ Oy Up)).
      + refine (Tri _ _ _ _ _ Fz (Rle_trans _ _ _ Oz Up)).
      + unfold head_error in *. fold th in R4, R5, R6, R7 |- *. cbn [length]. rewrite S_INR. set (n := INR (length l)) in *.
        assert (n0 : 0 <= n) by apply pos_INR.
        replace (D + (n + 1) * th) with (D + th + n * th) by ring.
        assert (HV : 0 <= H * V) by (apply Rmult_le_pos; lra).
        assert (Mo : H * V * D <= H * V * (D + th + n * th)) by (apply Rmult_le_compat_l; [exact HV|]; assert (0 <= n * th) by (apply Rmult_le_pos; lra); lra).
        assert (Fin : E + H * V * D + tx + n * (tx + H * V * (D + th + n * th)) <= E + (n + 1) * (tx + H * V * (D + th + n * th))) by lra.
        repeat split; auto; (eapply Rle_trans; [|exact Fin]); assumption.
  Qed.
End S.

Lemma flies3_path E T s p p' : 0 <= T -> flies3 E s p -> qg p' = qg p -> qr p' = qr p -> qv p' = qv p -> Rabs (qh p - qh p') <= T ->
  Rabs (qx p - qx p') <= T -> Rabs (qy p - qy p') <= T -> Rabs (qz p - qz p') <= T -> flies3 (E + T) s p'.
Proof.
  intros T0. unfold flies3. destruct s as [|x [|y [|z [|hd [|ga [|ro [|v [|? ?]]]]]]]]; try contradiction.
  intros (F & X & Y & Z & (k & K) & G & R & W) Eg Er Ev Dh Dx Dy Dz. rewrite Eg, Er, Ev.
  assert (Tri : forall u v w, Rabs (u - v) <= E -> Rabs (v - w) <= T -> Rabs (u - w) <= E + T).
  { intros u v0 w U1 U2. replace (u - w) with ((u - v0) + (v0 - w)) by ring. eapply Rle_trans; [apply Rabs_triang|lra]. }
  split; [exact F|]. split; [exact (Tri _ _ _ X Dx)|]. split; [exact (Tri _ _ _ Y Dy)|]. split; [exact (Tri _ _ _ Z Dz)|].
  split; [|split; [lra|split; lra]].
  exists k. match type of K with Rabs ?u <= _ => match goal with |- Rabs ?w <= _ => replace w with (u + (qh p - qh p')) by ring end end.
  eapply Rle_trans; [apply Rabs_triang|lra].
Qed.

Lemma fly3_path (lm : libm) (w : world f64) v_min v_max g_min g_max r_min r_max gr_min gr_max rr_min rr_max acc_min acc_max samples B H V C A m c a q
    xc yc zc hdc gac roc vc x0 y0 z0 hd0 ga0 ro0 v0 l :
  accurate lm -> accurate_tan lm -> (samples <= 0)%Z ->
  Forall (fun a : f64 => is_finite (f64_f32 a) = true) [v_min; v_max; g_min; g_max; r_min; r_max] ->
  Forall (fun a : f64 => is_finite a = true) [x0; y0; z0; hd0; ga0; ro0; v0] ->
  Forall (SpecRound.within 100) [gr_min; gr_max; rr_min; rr_max; acc_min; acc_max] ->
  Forall (fun a : f64 => m <= B2R a <= V) [f64_f32 v_min; f64_f32 v_max; v0] ->
  Forall (fun a : f64 => Rabs (B2R a) <= 2) [f64_f32 g_min; f64_f32 g_max; ga0] ->
  Forall (fun a : f64 => Rabs (B2R a) <= A) [f64_f32 r_min; f64_f32 r_max; ro0] ->
  Forall (fun a : f64 => Rabs (B2R a) <= C) [gr_min; gr_max; rr_min; rr_max; acc_min; acc_max] ->
  bpow radix2 (-100) <= m -> bpow radix2 (-100) <= c -> A + 1 / 1024 <= PI -> c <= cos (A + 1 / 1024) ->
  0 <= H -> Forall (fly3_ok H) l ->
  Forall (fun a : f64 => Rabs (B2R a) + INR (length l) * (H * V) + 1 <= B) [x0; y0; z0; hd0] ->
  B <= bpow radix2 99 -> V <= bpow radix2 99 -> fly3_error B H V C m c (length l) <= 1 ->
  Forall (fun b : f64 => Rabs (B2R b) <= q) [gr_min; gr_max; rr_min; rr_max] -> Forall (fun b : f64 => Rabs (B2R b) <= a) [acc_min; acc_max] ->
  let f (a : f64) := B2R (f64_f32 a) in
  f v_min <= B2R v0 <= f v_max -> f g_min <= B2R ga0 <= f g_max -> f r_min <= B2R ro0 <= f r_max ->
  let L := {| g_lo := f g_min; g_hi := f g_max; b_lo := f r_min; b_hi := f r_max; s_lo := f v_min; s_hi := f v_max;
              gr_lo := B2R gr_min; gr_hi := B2R gr_max; br_lo := B2R rr_min; br_hi := B2R rr_max;
              ac_lo := B2R acc_min; ac_hi := B2R acc_max |} in
  let p := {| qx := B2R x0; qy := B2R y0; qz := B2R z0; qh := B2R hd0; qg := B2R ga0; qr := B2R ro0; qv := B2R v0 |} in
  let ac := dubins3d_aircraft (N := F64 lm) samples "Euler" v_min v_max g_min g_max r_min r_max gr_min gr_max rr_min rr_max acc_min acc_max xc yc zc hdc gac roc vc in
  exists e s, run (N := F64 lm) w (set_state ac (A1 [x0; y0; z0; hd0; ga0; ro0; v0])) (map fly3_act l) = Ok e /\
    e_state e = A1 s /\ flies3 (fly3_error B H V C m c (length l) + path3_error H V m c a q (length l)) s (path3 L p (map fly3_num l)).
Proof.
  intros Ac At Sa Fv Fs Wl HV HG HA HC m9 c9 AP cA H0 Fl Fb B9 V9 Fe Hq Ha f Iv Ig Ir L p ac.
  destruct (fly3_main lm w v_min v_max g_min g_max r_min r_max gr_min gr_max rr_min rr_max acc_min acc_max samples B H V C A m c
    xc yc zc hdc gac roc vc x0 y0 z0 hd0 ga0 ro0 v0 l Ac At Sa Fv Fs Wl HV HG HA HC m9 c9 AP cA H0 Fl Fb B9 V9 Fe) as (e & s & R1 & R2 & R3).
  exists e, s. split; [exact R1|]. split; [exact R2|].
  pose proof (bpow_gt_0 radix2 (-100)) as P9.
  assert (m0 : 0 < m) by lra. assert (c0 : 0 < c) by lra.
  rewrite Forall_forall in HV, HA, Hq, Ha.
  assert (V1 : m <= s_lo L <= V) by (apply HV; cbn; tauto). assert (V2 : m <= s_hi L <= V) by (apply HV; cbn; tauto).
  assert (A1 : Rabs (b_lo L) <= A) by (apply HA; cbn; tauto). assert (A2 : Rabs (b_hi L) <= A) by (apply HA; cbn; tauto).
  assert (Q1 : Rabs (gr_lo L) <= q) by (apply Hq; cbn; tauto). assert (Q2 : Rabs (gr_hi L) <= q) by (apply Hq; cbn; tauto).
  assert (Q3 : Rabs (br_lo L) <= q) by (apply Hq; cbn; tauto). assert (Q4 : Rabs (br_hi L) <= q) by (apply Hq; cbn; tauto).
  assert (K1 : Rabs (ac_lo L) <= a) by (apply Ha; cbn; tauto). assert (K2 : Rabs (ac_hi L) <= a) by (apply Ha; cbn; tauto).
  assert (Co : forall t, Rabs t <= A -> c <= cos t) by (intros t Ht; apply (cos_small A c t AP cA); lra).
  destruct (aq0 L V m c a q m0 c0 V1 K1 Q1) as (a0 & q0 & W0 & J0 & V0).
  destruct (path3_close L V A m c a q m0 c0 V1 V2 A1 A2 Co K1 K2 Q1 Q2 Q3 Q4 H H0 (map fly3_num l) p p 0 0) as (X1 & X2 & X3 & X4 & X5 & X6 & X7); auto; try lra.
  - clear -Fl. induction Fl as [|[h u] l (_ & Hh & _) Fl IH]; cbn [map]; constructor; [exact Hh|exact IH].
  - rewrite Rminus_eq_0, Rabs_R0. lra.
  - rewrite Rminus_eq_0, Rabs_R0. lra.
  - rewrite Rminus_eq_0, Rabs_R0. lra.
  - rewrite Rminus_eq_0, Rabs_R0. lra.
  - rewrite map_length in X4, X5, X6, X7. rewrite !Rplus_0_l in X4, X5, X6, X7.
    assert (HH : 0 <= H * H / 2) by nra.
    assert (He : 0 <= head_error H m c a q (length l)) by (apply Rmult_le_pos; [apply pos_INR|apply Rmult_le_pos; lra]).
    assert (Hp : 0 <= INR (length l) * ((a + V * (turn_max m c + q)) * (H * H / 2) + H * V * head_error H m c a q (length l))).
    { apply Rmult_le_pos; [apply pos_INR|]. apply Rplus_le_le_0_compat.
      - apply Rmult_le_pos; [|lra]. apply Rplus_le_le_0_compat; [lra|]. apply Rmult_le_pos; lra.
      - apply Rmult_le_pos; [apply Rmult_le_pos; lra|lra]. }
    apply (flies3_path _ _ _ (fly3 L p (map fly3_num l))); auto; unfold path3_error; lra.
Qed.

Lemma path3_num : fly3_error 1501 (1 / 100) 400 100 200 (1 / 2) 100 + path3_error (1 / 100) 400 200 (1 / 2) 100 1 100 <= 5.
Proof.
  unfold fly3_error, step_error3, turn_lip, path3_error, head_error, turn_jerk, turn_max. replace (INR 100) with 100 by (simpl; lra).
  assert (P6 : bpow radix2 (-699) <= bpow radix2 (-47)) by (apply bpow_le; lia).
  assert (P4 : bpow radix2 (-47) <= / 1000000000) by (apply (Rle_trans _ (bpow radix2 (-30))); [apply bpow_le; lia|simpl; lra]).
  assert (P0 : 0 <= bpow radix2 (-47)) by apply bpow_ge_0. assert (P1 : 0 <= bpow radix2 (-699)) by apply bpow_ge_0.
  lra.
Qed.
Lemma path3_num1 : fly3_error 1501 (1 / 100) 400 100 200 (1 / 2) 100 <= 1.
Proof.
  unfold fly3_error, step_error3, turn_lip, turn_max. replace (INR 100) with 100 by (simpl; lra).
  assert (P6 : bpow radix2 (-699) <= bpow radix2 (-47)) by (apply bpow_le; lia).
  assert (P4 : bpow radix2 (-47) <= / 1000000000) by (apply (Rle_trans _ (bpow radix2 (-30))); [apply bpow_le; lia|simpl; lra]).
  assert (P0 : 0 <= bpow radix2 (-47)) by apply bpow_ge_0. assert (P1 : 0 <= bpow radix2 (-699)) by apply bpow_ge_0.
  lra.
Qed.
Lemma path3_ex (lm : libm) (w : world f64) l : accurate lm -> accurate_tan lm -> length l = 100%nat -> Forall (fly3_ok (1 / 100)) l ->
  let a := dubins3d_aircraft (N := F64 lm) 0 "Euler" (fl 200 1) (fl 400 1) (fl (-1) 1) (fl 1 1) (fl (-1) 1) (fl 1 1)
    (fl (-1) 1) (fl 1 1) (fl (-1) 1) (fl 1 1) (fl (-100) 1) (fl 100 1) (fl 0 1) (fl 0 1) (fl 0 1) (fl 0 1) (fl 0 1) (fl 0 1) (fl 200 1) in
  exists e s, run (N := F64 lm) w (set_state a (A1 [fl 1000 1; fl 500 1; fl (-500) 1; fl 3 1; fl 1 1; fl (-1) 1; fl 250 1])) (map fly3_act l) = Ok e /\ e_state e = A1 s /\
    flies3 5 s (path3 {| g_lo := -1; g_hi := 1; b_lo := -1; b_hi := 1; s_lo := 200; s_hi := 400;
        gr_lo := -1; gr_hi := 1; br_lo := -1; br_hi := 1; ac_lo := -100; ac_hi := 100 |}
      {| qx := 1000; qy := 500; qz := -500; qh := 3; qg := 1; qr := -1; qv := 250 |} (map fly3_num l)).
Proof.
  intros Ac At Ll Fo. cbv zeta.
  assert (N1 : is_finite (f64_f32 (fl 200 1)) = true /\ B2R (f64_f32 (fl 200 1)) = 200) by flw.
  assert (N2 : is_finite (f64_f32 (fl 400 1)) = true /\ B2R (f64_f32 (fl 400 1)) = 400) by flw.
  assert (N3 : is_finite (fl 1000 1) = true /\ B2R (fl 1000 1) = 1000) by flw.
  assert (N4 : is_finite (fl 500 1) = true /\ B2R (fl 500 1) = 500) by flw.
  assert (N5 : is_finite (fl 3 1) = true /\ B2R (fl 3 1) = 3) by flw.
  assert (N6 : is_finite (fl 250 1) = true /\ B2R (fl 250 1) = 250) by flw.
  assert (N7 : is_finite (fl (-500) 1) = true /\ B2R (fl (-500) 1) = -500) by flw.
  assert (N8 : is_finite (f64_f32 (fl (-1) 1)) = true /\ B2R (f64_f32 (fl (-1) 1)) = -1) by flw.
  assert (N9 : is_finite (f64_f32 (fl 1 1)) = true /\ B2R (f64_f32 (fl 1 1)) = 1) by flw.
  assert (M1 : is_finite (fl (-1) 1) = true /\ B2R (fl (-1) 1) = -1) by flw.
  assert (M2 : is_finite (fl 1 1) = true /\ B2R (fl 1 1) = 1) by flw.
  assert (M3 : is_finite (fl (-100) 1) = true /\ B2R (fl (-100) 1) = -100) by flw.
  assert (M4 : is_finite (fl 100 1) = true /\ B2R (fl 100 1) = 100) by flw.
  assert (W : forall a r, is_finite a = true /\ B2R a = r -> Rabs r <= 1024 -> SpecRound.within 100 a).
  { intros a r [F <-] H. split; [exact F|]. eapply Rle_trans; [exact H|]. apply (bpow_le radix2 10). lia. }
  assert (T : forall k : R, k <= 2 ^ 20 -> k <= bpow radix2 99).
  { intros k H. eapply Rle_trans; [exact H|]. replace (2 ^ 20) with (bpow radix2 20) by (simpl; lra). apply bpow_le. lia. }
  assert (T' : bpow radix2 (-100) <= 1 / 2) by (apply (Rle_trans _ (bpow radix2 (-1))); [apply bpow_le; lia|simpl; lra]).
  pose proof path3_num as Er. pose proof path3_num1 as Er1. rewrite <- Ll in Er, Er1.
  destruct (fly3_path lm w (fl 200 1) (fl 400 1) (fl (-1) 1) (fl 1 1) (fl (-1) 1) (fl 1 1)
      (fl (-1) 1) (fl 1 1) (fl (-1) 1) (fl 1 1) (fl (-100) 1) (fl 100 1) 0 1501 (1 / 100) 400 100 1 200 (1 / 2) 100 1
      (fl 0 1) (fl 0 1) (fl 0 1) (fl 0 1) (fl 0 1) (fl 0 1) (fl 200 1) (fl 1000 1) (fl 500 1) (fl (-500) 1) (fl 3 1) (fl 1 1) (fl (-1) 1) (fl 250 1) l) as (e & s & R & Es & Fs); auto using cos_half; try lia; try lra.
  - repeat (constructor; [tauto|]). constructor.
  - repeat (constructor; [tauto|]). constructor.
  - repeat (constructor; [eapply W; [eassumption|apply Rabs_le; lra]|]). constructor.
  - repeat (constructor; [first [rewrite (proj2 N1) | rewrite (proj2 N2) | rewrite (proj2 N6)]; lra|]). constructor.
  - repeat (constructor; [first [rewrite (proj2 N8) | rewrite (proj2 N9) | rewrite (proj2 M1) | rewrite (proj2 M2)]; apply Rabs_le; lra|]). constructor.
  - repeat (constructor; [first [rewrite (proj2 N8) | rewrite (proj2 N9) | rewrite (proj2 M1) | rewrite (proj2 M2)]; apply Rabs_le; lra|]). constructor.
  - repeat (constructor; [first [rewrite (proj2 M1) | rewrite (proj2 M2) | rewrite (proj2 M3) | rewrite (proj2 M4)]; apply Rabs_le; lra|]). constructor.
  - pose proof PI2_1. lra.
  - rewrite Ll. replace (INR 100) with 100 by (simpl; lra).
    repeat (constructor; [first [rewrite (proj2 N3) | rewrite (proj2 N4) | rewrite (proj2 N5) | rewrite (proj2 N7)]; unfold Rabs; destruct (Rcase_abs _); lra|]).
    constructor.
  - apply T. simpl. lra.
  - apply T. simpl. lra.
  - repeat (constructor; [first [rewrite (proj2 M1) | rewrite (proj2 M2)]; apply Rabs_le; lra|]). constructor.
  - repeat (constructor; [first [rewrite (proj2 M3) | rewrite (proj2 M4)]; apply Rabs_le; lra|]). constructor.
  - exists e, s. split; [exact R|]. split; [exact Es|]. cbv zeta in Fs. rewrite (proj2 N1), (proj2 N2), (proj2 N3), (proj2 N4), (proj2 N5), (proj2 N6),
      (proj2 N7), (proj2 N8), (proj2 N9), (proj2 M1), (proj2 M2), (proj2 M3), (proj2 M4) in Fs. eapply flies3_mono; [|exact Fs]. exact Er.
Qed.

(** The integrals solve the equations of motion. *)
Lemma path3_moves L ug ub ua p h : 0 < s_lo L <= s_hi L -> - (PI / 2) < b_lo L -> b_lo L <= b_hi L -> b_hi L < PI / 2 ->
  let at_ := fun t => path31 L t ug ub ua p in let r := at_ h in
  is_derive (fun t => qx (at_ t)) h (qv r * cos (qh r) * cos (qg r)) /\
  is_derive (fun t => qy (at_ t)) h (qv r * sin (qh r) * cos (qg r)) /\
  is_derive (fun t => qz (at_ t)) h (- qv r * sin (qg r)) /\
  is_derive (fun t => qh (at_ t)) h (32.17 / qv r * tan (qr r)) /\
  (g_lo L < qg p + h * clipR (gr_lo L) (gr_hi L) ug < g_hi L -> is_derive (fun t => qg (at_ t)) h (clipR (gr_lo L) (gr_hi L) ug)) /\
  (b_lo L < qr p + h * clipR (br_lo L) (br_hi L) ub < b_hi L -> is_derive (fun t => qr (at_ t)) h (clipR (br_lo L) (br_hi L) ub)) /\
  (s_lo L < qv p + h * clipR (ac_lo L) (ac_hi L) ua < s_hi L -> is_derive (fun t => qv (at_ t)) h (clipR (ac_lo L) (ac_hi L) ua)).
Proof.
  intros Hs Hb1 Hb2 Hb3 at_ r. unfold r, at_, path31. cbn [qx qy qz qh qg qr qv].
  assert (Sl : forall lo hi x k, (forall t, continuous (fun t => clipR lo hi (x + t * k)) t) /\
      (lo < x + h * k < hi -> is_derive (fun t => clipR lo hi (x + t * k)) h k)).
  { intros lo hi x k. split; [apply (lip_continuous _ (Rabs k)); intros s t; apply clip_slope, Rle_refl|]. intros [Lo Hi].
    apply (is_derive_ext_loc (fun t => x + t * k)); [|auto_derive; [exact I|ring]].
    assert (Ca : continuous (fun t => x + t * k) h) by (apply (lip_continuous _ (Rabs k)); intros s t; replace (x + s * k - (x + t * k)) with (k * (s - t)) by ring; rewrite Rabs_mult; lra).
    assert (O : locally (x + h * k) (fun y => lo < y < hi)).
    { apply (open_and (fun y => lo < y) (fun y => y < hi)); [apply open_gt|apply open_lt|split; assumption]. }
    apply Ca in O. unfold filtermap in O. revert O. apply filter_imp. intros t Ht. symmetry. apply clip_in. lra. }
  assert (Cs : forall t, continuous (speed_at L ua p) t) by (apply Sl). assert (Cg : forall t, continuous (gamma_at L ug p) t) by (apply Sl). assert (Cr : forall t, continuous (roll_at L ub p) t) by (apply Sl).
  assert (Int : forall x (g : R -> R), (forall t, continuous g t) -> forall t, is_derive (fun t => x + RInt g 0 t) t (g t)).
  { intros x g Cg' t. replace (g t) with (plus 0 (g t)) by (unfold plus; cbn; ring).
    apply (is_derive_plus (V := R_NormedModule) (fun _ => x) (fun t => RInt g 0 t)); [apply (is_derive_const (V := R_NormedModule))|].
    apply (is_derive_RInt g _ 0); [|apply Cg']. exists posreal_one. intros y _. apply (RInt_correct (V := R_CompleteNormedModule)).
    apply (ex_RInt_continuous (V := R_CompleteNormedModule)). intros; apply Cg'. }
  assert (Cq : forall t, continuous (fun s => 32.17 / speed_at L ua p s * tan (roll_at L ub p s)) t).
  { intros t. apply (continuous_mult (K := R_AbsRing)).
    - unfold Rdiv. apply (continuous_mult (K := R_AbsRing)); [apply continuous_const|]. apply (continuous_comp (speed_at L ua p) Rinv); [apply Cs|].
      apply continuous_Rinv. assert (s_lo L <= speed_at L ua p t) by (apply LimLemmas.clipR_between; lra). lra.
    - apply (continuous_comp (roll_at L ub p) tan); [apply Cr|].
      assert (B : b_lo L <= roll_at L ub p t <= b_hi L) by (apply LimLemmas.clipR_between; lra).
      apply continuous_tan. assert (0 < cos (roll_at L ub p t)) by (apply cos_gt_0; lra). lra. }
  assert (Ch : forall t, continuous (head_at L ub ua p) t).
  { intros t. apply (ex_derive_continuous (V := R_NormedModule)). eexists. apply (Int _ _ Cq). }
  assert (Tc : forall f, (forall t, continuous f t) -> forall t : R, continuous (fun t => cos (f t)) t) by (intros f Cf t; apply (continuous_comp f cos); [apply Cf|apply continuous_cos]).
  assert (Ts : forall f, (forall t, continuous f t) -> forall t : R, continuous (fun t => sin (f t)) t) by (intros f Cf t; apply (continuous_comp f sin); [apply Cf|apply continuous_sin]).
  assert (Mu : forall f g : R -> R, (forall t, continuous f t) -> (forall t, continuous g t) -> forall t, continuous (fun t => f t * g t) t)
    by (intros f g Cf Cg' t; apply (continuous_mult (K := R_AbsRing)); auto).
  split; [apply (Int _ (fun t => speed_at L ua p t * cos (head_at L ub ua p t) * cos (gamma_at L ug p t))); apply Mu; [apply Mu|]; auto|].
  split; [apply (Int _ (fun t => speed_at L ua p t * sin (head_at L ub ua p t) * cos (gamma_at L ug p t))); apply Mu; [apply Mu|]; auto|].
  split.
  { apply (Int _ (fun t => - speed_at L ua p t * sin (gamma_at L ug p t))). apply Mu; [|auto]. intros t. apply (continuous_opp (V := R_NormedModule)). apply Cs. }
  split; [apply (Int _ _ Cq)|]. split; [|split]; intros I; apply Sl; exact I.
Qed.
Lemma path3_moves_ex : let L := {| g_lo := -1; g_hi := 1; b_lo := -1; b_hi := 1; s_lo := 200; s_hi := 400; gr_lo := -1; gr_hi := 1; br_lo := -1; br_hi := 1; ac_lo := -100; ac_hi := 100 |} in
  path31 L (5 * PI) 0 0 0 {| qx := 0; qy := 0; qz := -500; qh := 0; qg := 0; qr := PI / 4; qv := 321.7 |} =
    {| qx := 3217; qy := 3217; qz := -500; qh := PI / 2; qg := 0; qr := PI / 4; qv := 321.7 |}.
Proof.
  intros L. set (p := {| qx := 0; qy := 0; qz := -500; qh := 0; qg := 0; qr := PI / 4; qv := 321.7 |}).
  assert (Pi : 0 < PI <= 4) by (split; [apply PI_RGT_0|apply PI_4]).
  assert (Sg : forall t, gamma_at L 0 p t = 0).
  { intros t. unfold gamma_at, L, p. cbn [gr_lo gr_hi g_lo g_hi qg]. rewrite (clip_in (-1) 1 0), Rmult_0_r, Rplus_0_r by lra. apply clip_in; lra. }
  assert (Sr : forall t, roll_at L 0 p t = PI / 4).
  { intros t. unfold roll_at, L, p. cbn [br_lo br_hi b_lo b_hi qr]. rewrite (clip_in (-1) 1 0), Rmult_0_r, Rplus_0_r by lra. apply clip_in; lra. }
  assert (Ss : forall t, speed_at L 0 p t = 321.7).
  { intros t. unfold speed_at, L, p. cbn [ac_lo ac_hi s_lo s_hi qv]. rewrite (clip_in (-100) 100 0), Rmult_0_r, Rplus_0_r by lra. apply clip_in; lra. }
  assert (Sh : forall t, head_at L 0 0 p t = t / 10).
  { intros t. unfold head_at. rewrite (RInt_ext _ (fun _ => 1 / 10)) by (intros s _; rewrite Ss, Sr, tan_PI4; lra).
    rewrite RInt_const. unfold scal, p. cbn. unfold mult. cbn. lra. }
  assert (E : forall (F g : R -> R) d, (forall t, is_derive F t (g t)) -> (forall t, continuous g t) -> F (5 * PI) - F 0 = d -> RInt g 0 (5 * PI) = d).
  { intros F g d D Cg Ed. rewrite <- Ed. apply is_RInt_unique. apply (is_RInt_derive (V := R_CompleteNormedModule) F g); intros; [apply D|apply Cg]. }
  assert (Ct : forall t, continuous (fun t => t / 10) t) by (intros t; apply (continuous_mult (K := R_AbsRing) (fun t => t) (fun _ => / 10)); [apply continuous_id|apply continuous_const]).
  unfold path31. rewrite Sg, Sr, Ss, Sh.
  rewrite (RInt_ext _ (fun t => 321.7 * cos (t / 10))) by (intros t _; rewrite Ss, Sh, Sg, cos_0; match goal with |- ?x = ?y => change (@eq R x y) end; ring).
  rewrite (RInt_ext (fun t => speed_at L 0 p t * sin (head_at L 0 0 p t) * cos (gamma_at L 0 p t)) (fun t => 321.7 * sin (t / 10))) by (intros t _; rewrite Ss, Sh, Sg, cos_0; match goal with |- ?x = ?y => change (@eq R x y) end; ring).
  rewrite (RInt_ext (fun t => - speed_at L 0 p t * sin (gamma_at L 0 p t)) (fun t => 0)) by (intros t _; rewrite Sg, sin_0; match goal with |- ?x = ?y => change (@eq R x y) end; ring).
  rewrite (E (fun t => 3217 * sin (t / 10)) (fun t => 321.7 * cos (t / 10)) 3217), (E (fun t => - 3217 * cos (t / 10)) (fun t => 321.7 * sin (t / 10)) 3217), (E (fun _ => 0) (fun _ => 0) 0); unfold p; cbn [qx qy qz].
  - f_equal; lra.
  - intros t. apply (is_derive_const (V := R_NormedModule)).
  - intros t. apply continuous_const.
  - ring.
  - intros t. auto_derive; [exact I|]. lra.
  - intros t. apply (continuous_mult (K := R_AbsRing)); [apply continuous_const|]. apply (continuous_comp (fun t => t / 10) sin); [apply Ct|apply continuous_sin].
  - replace (5 * PI / 10) with (PI / 2) by lra. replace (0 / 10) with 0 by lra. rewrite cos_PI2, cos_0. ring.
  - intros t. auto_derive; [exact I|]. lra.
  - intros t. apply (continuous_mult (K := R_AbsRing)); [apply continuous_const|]. apply (continuous_comp (fun t => t / 10) cos); [apply Ct|apply continuous_cos].
  - replace (5 * PI / 10) with (PI / 2) by lra. replace (0 / 10) with 0 by lra. rewrite sin_PI2, sin_0. ring.
Qed.
