(** Runs of the two-dimensional aircraft in binary64 (C113). *)
From Coq Require Import String ZArith Reals Bool List Lra Lia Psatz.
From Flocq Require Import Core.Core IEEE754.BinarySingleNaN.
From Verif Require Import PyBase Num Arr BaseModel Dubins Spec SpecCwh NumOrdLemmas ArrLemmas BaseLemmas BaseLemmas2 BaseLemmas3 LimLemmas
  Float64 F64Wrap F64Bound F64Err ConvLemmas SpecRound RoundCwh SpecLin LinRound WrapErr SpecFly FlyRound.
Import List ListNotations.
Local Open Scope R_scope.

(** Stopping at a limit makes no difference once the new value is clipped. *)
Lemma clip_stop lo hi v h a : 0 <= h -> clipR lo hi (v + h * stopR lo hi v a) = clipR lo hi (v + h * a).
Proof.
  intros Hh. unfold stopR. destruct (Rle_dec hi v) as [A|A].
  - destruct (Rle_dec a 0) as [P|P]; [rewrite Rmin_left by lra; reflexivity|]. rewrite Rmin_right by lra.
    assert (0 <= h * a) by (apply Rmult_le_pos; lra). unfold clipR, Rmin, Rmax. repeat destruct (Rle_dec _ _); lra.
  - destruct (Rle_dec v lo) as [B|B]; [|reflexivity].
    destruct (Rle_dec 0 a) as [P|P]; [rewrite Rmax_left by lra; reflexivity|]. rewrite Rmax_right by lra.
    assert (0 <= h * - a) by (apply Rmult_le_pos; lra). unfold clipR, Rmin, Rmax. repeat destruct (Rle_dec _ _); lra.
Qed.
Lemma clipR_size lo hi z V : Rabs lo <= V -> Rabs hi <= V -> Rabs (clipR lo hi z) <= V.
Proof.
  intros A B. apply Rabs_le_inv in A. apply Rabs_le_inv in B. apply Rabs_le. unfold clipR, Rmin, Rmax.
  repeat destruct (Rle_dec _ _); lra.
Qed.

Lemma angle_cos E a t : angle_near E a t -> Rabs (cos a - cos t) <= E /\ Rabs (sin a - sin t) <= E.
Proof.
  intros [k K]. destruct (turn_cos (t + 2 * IZR k * PI) t) as [C S].
  { exists k. ring. }
  rewrite <- C, <- S. split; (eapply Rle_trans; [|exact K]); [apply cos_close|apply sin_close].
Qed.
Lemma angle_step E E' F a t b h : angle_near E a t -> angle_near E' b (a + h) -> E + E' <= F -> angle_near F b (t + h).
Proof.
  intros [k K] [k' K'] Le. exists (k + k')%Z. rewrite plus_IZR.
  replace (b - (t + h + 2 * (IZR k + IZR k') * PI)) with ((b - (a + h + 2 * IZR k' * PI)) + (a - (t + 2 * IZR k * PI))) by ring.
  eapply Rle_trans; [apply Rabs_triang|]. lra.
Qed.

(** Products of a speed and a direction. *)
Lemma move_near V ev ec h H v c v' c' : 0 <= h <= H -> Rabs (v - v') <= ev -> Rabs (c - c') <= ec -> Rabs c <= 1 -> Rabs v' <= V ->
  Rabs (h * (v * c) - h * (v' * c')) <= H * (ev + V * ec).
Proof.
  intros Hh A B C D.
  replace (h * (v * c) - h * (v' * c')) with (h * ((v - v') * c + v' * (c - c'))) by ring.
  rewrite Rabs_mult, (Rabs_pos_eq h) by lra. apply Rmult_le_compat; [lra|apply Rabs_pos|lra|].
  eapply Rle_trans; [apply Rabs_triang|]. rewrite !Rabs_mult. apply Rplus_le_compat.
  - rewrite <- (Rmult_1_r ev). apply Rmult_le_compat; auto using Rabs_pos.
  - apply Rmult_le_compat; auto using Rabs_pos.
Qed.

Section F.
  Variable lm : libm.
  Local Hint Extern 0 (Num f64) => exact (F64 lm) : typeclass_instances.

  Section R.
    Variables (w : world f64) (v_min v_max hr_min hr_max acc_min acc_max : f64) (samples : Z) (B H V Q C X D : R) (N : nat).
    Hypotheses (Ac : accurate lm) (Sa : (samples <= 0)%Z)
      (Fl : is_finite (nf32 v_min) = true) (Fh : is_finite (nf32 v_max) = true)
      (Wc : Forall (within 100) [hr_min; hr_max; acc_min; acc_max])
      (V1 : Rabs (B2R (nf32 v_min)) <= V) (V2 : Rabs (B2R (nf32 v_max)) <= V)
      (Q1 : Rabs (B2R hr_min) <= Q) (Q2 : Rabs (B2R hr_max) <= Q)
      (C1 : Rabs (B2R acc_min) <= C) (C2 : Rabs (B2R acc_max) <= C)
      (H0 : 0 <= H) (D0 : 0 <= D) (X0 : 0 <= X) (Bx : X + INR N * (H * V) + 1 <= B) (B100 : B <= bpow radix2 99) (V100 : V <= bpow radix2 99)
      (Er : D + fly_error B H V Q C N <= 1).
    Let lo := B2R (nf32 v_min).
    Let hi := B2R (nf32 v_max).
    Let L := {| v_lo := lo; v_hi := hi; r_lo := B2R hr_min; r_hi := B2R hr_max; a_lo := B2R acc_min; a_hi := B2R acc_max |}.
    Let r := step_error B H V Q C.

    (** After [i] steps; [D] is an error of the position present from the start. *)
    Definition fly_inv (i : nat) (e : entity f64) (p : pose) : Prop :=
      e_dyn e = dubins2d_dyn v_min v_max samples "Euler" /\ e_cmin e = A1 [hr_min; acc_min] /\ e_cmax e = A1 [hr_max; acc_max] /\
      Rabs (px p) <= X + INR i * (H * V) /\ Rabs (py p) <= X + INR i * (H * V) /\ Rabs (pv p) <= V /\
      exists x y hd v, e_state e = A1 [x; y; hd; v] /\ Forall (fun a : f64 => is_finite a = true) [x; y; hd; v] /\
        Rabs (B2R x - px p) <= D + fly_error B H V Q C i /\ Rabs (B2R y - py p) <= D + fly_error B H V Q C i /\
        angle_near (INR i * r) (B2R hd) (phead p) /\ Rabs (B2R v - pv p) <= INR i * r /\ Rabs (B2R v) <= V /\ Rabs (B2R hd) <= B + 4.

    Lemma V0 : 0 <= V.
    Proof. eapply Rle_trans; [apply Rabs_pos|exact V1]. Qed.
    Lemma Q0 : 0 <= Q.
    Proof. eapply Rle_trans; [apply Rabs_pos|exact Q1]. Qed.
    Lemma C0 : 0 <= C.
    Proof. eapply Rle_trans; [apply Rabs_pos|exact C1]. Qed.
    Lemma HV0 : 0 <= H * V.
    Proof. apply Rmult_le_pos; [exact H0|apply V0]. Qed.
    Lemma B0 : 1 <= B.
    Proof. pose proof HV0. pose proof (pos_INR N). assert (0 <= INR N * (H * V)) by (apply Rmult_le_pos; lra). lra. Qed.
    Lemma r0 : 0 <= r.
    Proof.
      unfold r, step_error. pose proof V0. pose proof Q0. pose proof C0. pose proof B0.
      assert (0 <= H * (V + Q + C)) by (apply Rmult_le_pos; lra). pose proof (bpow_ge_0 radix2 (-700)). pose proof (bpow_ge_0 radix2 (-48)).
      assert (0 <= bpow radix2 (-48) * (B + V + H * (V + Q + C) + 13)) by (apply Rmult_le_pos; lra). lra.
    Qed.
    Lemma err_mono i : (i <= N)%nat -> D + fly_error B H V Q C i <= 1.
    Proof.
      intros Hi. eapply Rle_trans; [|exact Er]. apply Rplus_le_compat_l. unfold fly_error. fold r. apply le_INR in Hi. pose proof (pos_INR i). pose proof V0. pose proof r0.
      apply Rmult_le_compat_r; [exact r0|].
      assert (0 <= H * (1 + V)) by (apply Rmult_le_pos; lra). apply Rmult_le_compat; try lra.
      - assert (0 <= H * (1 + V) * INR i) by (apply Rmult_le_pos; lra). lra.
      - apply Rplus_le_compat_l, Rmult_le_compat_l; lra.
    Qed.
    Lemma err_step i : fly_error B H V Q C i + r + H * (1 + V) * (INR i * r) <= fly_error B H V Q C (S i).
    Proof.
      unfold fly_error. fold r. rewrite S_INR. pose proof (pos_INR i). pose proof V0. pose proof r0.
      assert (0 <= H * (1 + V)) by (apply Rmult_le_pos; lra). set (c := H * (1 + V)) in *. clearbody c.
      assert (0 <= c * (INR i + 1) * r) by (apply Rmult_le_pos; [apply Rmult_le_pos; lra|lra]). nra.
    Qed.
    Lemma rnd_le z : 0 <= z -> z <= B + V + H * (V + Q + C) + 13 -> bpow radix2 (-48) * z + bpow radix2 (-700) <= r.
    Proof. intros _ Z. unfold r, step_error. apply Rplus_le_compat_r, Rmult_le_compat_l; [apply bpow_ge_0|exact Z]. Qed.

    Lemma fly_step i e p (h rate acc : f64) : (i < N)%nat -> fly_inv i e p -> within 100 h -> 0 <= B2R h <= H ->
      is_finite rate = true -> is_finite acc = true ->
      let o := entity_step w e h (AArr (A1 [rate; acc])) in
      o_res o = Ok tt /\ fly_inv (S i) (o_entity o) (fly1 L (B2R h) (B2R rate) (B2R acc) p).
    Proof.
      intros Hi (Ed & E1 & E2 & Px & Py & Pv & x & y & hd & v & Es & Fs & Dx & Dy & Dh & Dv & Sv & Sh) Wh Hh Fr Fa o.
      apply Forall_cons_iff in Fs as [Fx Fs]. apply Forall_cons_iff in Fs as [Fy Fs]. apply Forall_cons_iff in Fs as [Fhd Fs].
      apply Forall_cons_iff in Fs as [Fv _].
      pose proof (err_mono i ltac:(lia)) as Ei. pose proof HV0 as HV. pose proof V0 as V0'. pose proof Q0 as Q0'. pose proof C0 as C0'.
      assert (Ni : INR i * (H * V) + H * V <= INR N * (H * V)).
      { assert (INR i + 1 <= INR N) by (rewrite <- S_INR; apply le_INR; lia).
        replace (INR i * (H * V) + H * V) with ((INR i + 1) * (H * V)) by ring. apply Rmult_le_compat_r; lra. }
      assert (Bd : forall a b, Rabs (a - b) <= 1 -> Rabs b <= X + INR i * (H * V) -> Rabs a <= B).
      { intros a b P P'. replace a with ((a - b) + b) by ring. eapply Rle_trans; [apply Rabs_triang|]. lra. }
      pose proof (Bd _ _ (Rle_trans _ _ _ Dx Ei) Px) as Bx'. pose proof (Bd _ _ (Rle_trans _ _ _ Dy Ei) Py) as By'.
      assert (T : 2 * bpow radix2 99 = bpow radix2 100) by (rewrite <- bpow2_S; reflexivity).
      assert (T4 : 4 <= bpow radix2 99) by (apply (bpow_le radix2 2); lia).
      assert (Ws : Forall (within 100) [x; y; hd; v]).
      { repeat (constructor; [split; [assumption|lra]|]). constructor. }
      destruct (fly_euler lm w e v_min v_max samples hr_min hr_max acc_min acc_max h x y hd v rate acc Ac Ed Sa E1 E2 Fl Fh Wc Wh Ws
        ltac:(repeat constructor; assumption) Es) as (x' & y' & hd' & v' & R1 & R2 & [Fx' Ax] & [Fy' Ay] & Fh' & Rh & Nh & [Fv' Av] & z & Ez).
      fold o in R1, R2. split; [exact R1|].
      pose proof (entity_step_config w e h (AArr (A1 [rate; acc]))) as (K1 & _ & K2 & K3 & _). fold o in K1, K2, K3.
      destruct (angle_cos _ _ _ Dh) as [Cc Cs].
      fold lo hi in Av, Ez. rewrite clip_stop in Av by lra.
      assert (Sz1 : Rabs (clipR (B2R hr_min) (B2R hr_max) (B2R rate)) <= Q) by (apply clipR_size; assumption).
      assert (Sz2 : Rabs (clipR (B2R acc_min) (B2R acc_max) (B2R acc)) <= C) by (apply clipR_size; assumption).
      set (cr := clipR (B2R hr_min) (B2R hr_max) (B2R rate)) in *. set (ca := clipR (B2R acc_min) (B2R acc_max) (B2R acc)) in *.
      rewrite (Rabs_pos_eq (B2R h)) in Ax, Ay, Nh, Av by lra.
      assert (HvV : B2R h * Rabs (B2R v) <= H * V) by (apply Rmult_le_compat; auto using Rabs_pos; lra).
      assert (HvV' : B2R h * Rabs (pv p) <= H * V) by (apply Rmult_le_compat; auto using Rabs_pos; lra).
      assert (HrQ : B2R h * Rabs cr <= H * Q) by (apply Rmult_le_compat; auto using Rabs_pos; lra).
      assert (HaC : B2R h * Rabs ca <= H * C) by (apply Rmult_le_compat; auto using Rabs_pos; lra).
      assert (HQ : 0 <= H * Q) by (apply Rmult_le_pos; lra). assert (HC : 0 <= H * C) by (apply Rmult_le_pos; lra).
      pose proof B0 as B0'. pose proof r0 as r0'.
      assert (Sum : H * (V + Q + C) = H * V + H * Q + H * C) by ring.
      assert (G1 : forall q, 0 <= q -> q <= B + V + H * (V + Q + C) + 13 -> bpow radix2 (-48) * q + bpow radix2 (-700) <= r) by apply rnd_le.
      pose proof (Rabs_pos (B2R x)). pose proof (Rabs_pos (B2R y)). pose proof (Rabs_pos (B2R hd)). pose proof (Rabs_pos (B2R v)).
      assert (P1 : 0 <= B2R h * Rabs (B2R v)) by (apply Rmult_le_pos; lra). assert (P2 : 0 <= B2R h * Rabs cr) by (apply Rmult_le_pos; [lra|apply Rabs_pos]).
      assert (P3 : 0 <= B2R h * Rabs ca) by (apply Rmult_le_pos; [lra|apply Rabs_pos]).
      pose proof (G1 (Rabs (B2R x) + B2R h * Rabs (B2R v)) ltac:(lra) ltac:(rewrite Sum; lra)) as Gx.
      pose proof (G1 (Rabs (B2R y) + B2R h * Rabs (B2R v)) ltac:(lra) ltac:(rewrite Sum; lra)) as Gy.
      pose proof (G1 (Rabs (B2R v) + B2R h * Rabs ca) ltac:(lra) ltac:(rewrite Sum; lra)) as Gv.
      apply (fun A => Rle_trans _ _ _ A Gx) in Ax. apply (fun A => Rle_trans _ _ _ A Gy) in Ay. apply (fun A => Rle_trans _ _ _ A Gv) in Av.
      pose proof (G1 (Rabs (B2R hd) + B2R h * Rabs cr + 8) ltac:(lra) ltac:(rewrite Sum; lra)) as Nh'.
      pose proof (err_step i) as ES.
      assert (Mv : forall c c', Rabs (c - c') <= INR i * r -> Rabs c <= 1 ->
        Rabs (B2R h * (B2R v * c) - B2R h * (pv p * c')) <= H * (1 + V) * (INR i * r)).
      { intros c c' P P'. eapply Rle_trans; [apply (move_near V (INR i * r) (INR i * r) (B2R h) H); eassumption|]. right. ring. }
      assert (Sp : forall c, Rabs c <= 1 -> Rabs (B2R h * (pv p * c)) <= H * V).
      { intros c P. rewrite !Rabs_mult, (Rabs_pos_eq (B2R h)) by lra. eapply Rle_trans; [|exact HvV']. apply Rmult_le_compat_l; [lra|].
        rewrite <- (Rmult_1_r (Rabs (pv p))) at 2. apply Rmult_le_compat_l; [apply Rabs_pos|exact P]. }
      pose proof (COS_bound (B2R hd)) as Cb. pose proof (SIN_bound (B2R hd)) as Sb.
      pose proof (COS_bound (phead p)) as Cb'. pose proof (SIN_bound (phead p)) as Sb'.
      unfold fly_inv. cbn [fly1 px py phead pv L v_lo v_hi r_lo r_hi a_lo a_hi]. fold cr ca.
      split; [congruence|]. split; [congruence|]. split; [congruence|]. rewrite S_INR.
      replace (X + (INR i + 1) * (H * V)) with (X + INR i * (H * V) + H * V) by ring.
      split; [eapply Rle_trans; [apply Rabs_triang|]; apply Rplus_le_compat; [exact Px|apply Sp, Rabs_le; lra]|].
      split; [eapply Rle_trans; [apply Rabs_triang|]; apply Rplus_le_compat; [exact Py|apply Sp, Rabs_le; lra]|].
      split; [apply clipR_size; assumption|].
      exists x', y', hd', v'. split; [exact R2|]. split; [repeat (constructor; [assumption|]); constructor|].
      assert (Mx : forall a b a' c c' : R, Rabs (a - b) <= D + fly_error B H V Q C i -> Rabs (a' - (a + B2R h * (B2R v * c))) <= r ->
        Rabs (c - c') <= INR i * r -> Rabs c <= 1 -> Rabs (a' - (b + B2R h * (pv p * c'))) <= D + fly_error B H V Q C (S i)).
      { intros a b a' c c' A1 A2 A3 A4.
        replace (a' - (b + B2R h * (pv p * c'))) with ((a' - (a + B2R h * (B2R v * c))) + ((a - b) + (B2R h * (B2R v * c) - B2R h * (pv p * c')))) by ring.
        eapply Rle_trans; [apply Rabs_triang|]. eapply Rle_trans; [apply Rplus_le_compat_l, Rabs_triang|].
        pose proof (Mv c c' A3 A4). lra. }
      split; [eapply Mx; [exact Dx|exact Ax|exact Cc|apply Rabs_le; lra]|].
      split; [eapply Mx; [exact Dy|exact Ay|exact Cs|apply Rabs_le; lra]|].
      split; [eapply angle_step; [exact Dh|exact Nh|lra]|].
      split.
      { replace (B2R v' - clipR lo hi (pv p + B2R h * ca)) with
          ((B2R v' - clipR lo hi (B2R v + B2R h * ca)) + (clipR lo hi (B2R v + B2R h * ca) - clipR lo hi (pv p + B2R h * ca))) by ring.
        eapply Rle_trans; [apply Rabs_triang|].
        pose proof (clipR_near lo hi (B2R v + B2R h * ca) (pv p + B2R h * ca)) as Cn.
        replace (B2R v + B2R h * ca - (pv p + B2R h * ca)) with (B2R v - pv p) in Cn by ring. lra. }
      split; [rewrite Ez; apply clipR_size; assumption|].
      pose proof pi64_bounds. apply Rabs_le. lra.
    Qed.

    Lemma fly_run l : forall i e p, (i + length l <= N)%nat -> fly_inv i e p -> Forall (fly_ok H) l ->
      exists e', run w e (map fly_act l) = Ok e' /\ fly_inv (i + length l) e' (fly L p (map fly_num l)).
    Proof.
      induction l as [|[[h rate] acc] l IH]; intros i e p Li I F.
      - exists e. split; [reflexivity|]. cbn [length map fly]. rewrite Nat.add_0_r. exact I.
      - apply Forall_cons_iff in F as [(Wh & Hh & Fr & Fa) F]. cbn [fst snd] in Wh, Hh, Fr, Fa.
        cbn [length] in Li. destruct (fly_step i e p h rate acc ltac:(lia) I Wh Hh Fr Fa) as [R1 I'].
        destruct (IH (S i) _ _ ltac:(lia) I' F) as (e' & R & I2). exists e'. split.
        + cbn [map fly_act run fst snd]. rewrite R1. cbn [bind]. exact R.
        + cbn [length map fly fly_num fst snd]. replace (i + S (length l))%nat with (S i + length l)%nat by lia. exact I2.
    Qed.

    Lemma fly_inv_flies i e p : fly_inv i e p -> exists s, e_state e = A1 s /\ flies (D + fly_error B H V Q C i) s p.
    Proof.
      intros (_ & _ & _ & _ & _ & _ & x & y & hd & v & Es & Fs & Dx & Dy & (k & Dh) & Dv & _).
      assert (Le : INR i * r <= fly_error B H V Q C i).
      { unfold fly_error. fold r. pose proof (pos_INR i). pose proof V0. pose proof r0.
        assert (0 <= H * (1 + V)) by (apply Rmult_le_pos; lra). apply Rmult_le_compat_r; [lra|].
        assert (0 <= H * (1 + V) * INR i) by (apply Rmult_le_pos; lra).
        rewrite <- (Rmult_1_r (INR i)) at 1. apply Rmult_le_compat_l; lra. }
      eexists. split; [exact Es|]. cbn [flies]. split; [exact Fs|]. split; [exact Dx|]. split; [exact Dy|].
      split; [exists k; lra|lra].
    Qed.
  End R.
End F.
