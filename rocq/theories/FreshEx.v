(** The first step of a new aircraft is computed in float32 (C115). *)
From Coq Require Import String ZArith Reals Bool List Lra Lia Psatz.
From Flocq Require Import Core.Core IEEE754.BinarySingleNaN.
From Verif Require Import PyBase Num Arr BaseModel Dubins Spec SpecCwh NumOrdLemmas ArrLemmas BaseLemmas BaseLemmas2 BaseLemmas3 LimLemmas
  Float64 XTac F64Wrap F64Bound F64Err ConvLemmas SpecRound RoundCwh SpecLin LinRound WrapErr SpecFly FlyRound FlyRun FlyEx SpecFly3 Fly3Ex F32 Fresh SpecFresh FreshLemmas.
Import List ListNotations.
Local Open Scope R_scope.

Fixpoint factZ (n : nat) : Z := match n with O => 1 | S k => Z.of_nat (S k) * factZ k end.
Lemma fact_factZ n : INR (fact n) = IZR (factZ n).
Proof.
  induction n as [|n IH]; [reflexivity|]. change (fact (S n)) with (S n * fact n)%nat.
  cbn [factZ]. rewrite mult_INR, mult_IZR, IH, INR_IZR_INZ. reflexivity.
Qed.
Lemma cos_one : 9064768.4 / 16777216 < cos 1 < 9064768.6 / 16777216.
Proof.
  pose proof PI2_1 as P. destruct (cos_bound 1 2 ltac:(lra) ltac:(lra)) as [A B].
  unfold cos_approx in A, B. cbn [Nat.mul Nat.add sum_f_R0] in A, B. unfold cos_term in A, B.
  cbn [Nat.mul Nat.add] in A, B. rewrite !fact_factZ, !pow1 in A. rewrite !fact_factZ, !pow1 in B.
  repeat match type of A with context [factZ ?n] => let v := eval vm_compute in (factZ n) in change (factZ n) with v in A end.
  repeat match type of B with context [factZ ?n] => let v := eval vm_compute in (factZ n) in change (factZ n) with v in B end.
  simpl pow in A, B. lra.
Qed.

(** No float32 number is close to 256 cos 1. *)
Lemma off_grid F : fmt32 F -> 6 / 1000000 <= Rabs (F - 256 * cos 1).
Proof.
  intros Ff. pose proof cos_one as C. destruct (Rle_lt_dec 128 F) as [G|G].
  - destruct (fmt32_grid F (-16) Ff ltac:(lia)) as [k K].
    { rewrite Rabs_pos_eq by lra. simpl. lra. }
    simpl (bpow radix2 (-16)) in K. rewrite K.
    destruct (Z_le_gt_dec k 9064768) as [L|L].
    + apply IZR_le in L. rewrite Rabs_left1; lra.
    + assert (9064769 <= k)%Z as L' by lia. apply IZR_le in L'. rewrite Rabs_pos_eq; lra.
  - rewrite Rabs_left1; lra.
Qed.

Definition one_step : list (f64 * f64 * f64) := [(fl 1 1, fl 0 1, fl 0 1)].
Lemma fl0 : is_finite (fl 0 1) = true /\ B2R (fl 0 1) = 0.
Proof. replace (fl 0 1) with (B754_zero false : f64) by (apply f64_eq; vm_compute; reflexivity). split; reflexivity. Qed.
Lemma f32_0 : f64_f32 (fl 0 1) = fl 0 1.
Proof. apply f64_eq. vm_compute. reflexivity. Qed.

Lemma one_step_ok : Forall (fly_ok 1) one_step.
Proof.
  assert (M2 : is_finite (fl 1 1) = true /\ B2R (fl 1 1) = 1) by flv.
  constructor; [|constructor]. unfold fly_ok, within. cbn [fst snd]. rewrite (proj2 M2), Rabs_R1.
  split; [split; [apply M2|apply (bpow_le radix2 0); lia]|]. split; [lra|]. split; apply fl0.
Qed.

Definition limits_ex : limits := {| v_lo := 200; v_hi := 400; r_lo := -1; r_hi := 1; a_lo := -100; a_hi := 100 |}.
Definition pose_ex : pose := {| px := 0; py := 0; phead := 1; pv := 256 |}.

Section W.
  Variables (lm : libm) (m : libm32) (w : world f64).
  Hypotheses (Ac : accurate lm) (Am : accurate32 m).
  Local Hint Extern 0 (Num f64) => exact (F64 lm) : typeclass_instances.

  Lemma new_off : exists e s,
    fly_new2d lm m w 0 (fl 200 1) (fl 400 1) (fl (-1) 1) (fl 1 1) (fl (-100) 1) (fl 100 1) (fl 0 1) (fl 0 1) (fl 1 1) (fl 256 1) (map fly_act one_step) = Ok e /\
    e_state e = A1 s /\ ~ flies (5 / 1000000) s (fly limits_ex pose_ex (map fly_num one_step)).
  Proof.
    assert (N1 : is_finite (f64_f32 (fl 200 1)) = true /\ B2R (f64_f32 (fl 200 1)) = 200) by flv.
    assert (N2 : is_finite (f64_f32 (fl 400 1)) = true /\ B2R (f64_f32 (fl 400 1)) = 400) by flv.
    assert (N5 : is_finite (f64_f32 (fl 1 1)) = true /\ B2R (f64_f32 (fl 1 1)) = 1) by flv.
    assert (N6 : is_finite (f64_f32 (fl 256 1)) = true /\ B2R (f64_f32 (fl 256 1)) = 256) by flv.
    assert (M1 : is_finite (fl (-1) 1) = true /\ B2R (fl (-1) 1) = -1) by flv.
    assert (M2 : is_finite (fl 1 1) = true /\ B2R (fl 1 1) = 1) by flv.
    assert (M3 : is_finite (fl (-100) 1) = true /\ B2R (fl (-100) 1) = -100) by flv.
    assert (M4 : is_finite (fl 100 1) = true /\ B2R (fl 100 1) = 100) by flv.
    pose proof fl0 as M0.
    assert (W : forall a r, is_finite a = true /\ B2R a = r -> Rabs r <= 1024 -> forall k, (10 <= k)%Z -> within k a).
    { intros a r [F <-] H k Hk. split; [exact F|]. eapply Rle_trans; [exact H|]. apply (bpow_le radix2 10). exact Hk. }
    destruct (Am _ (f32_idem (fl 1 1) (proj1 N5))) as [[Fc Ec] [Fsn Esn]].
    set (xd := nf32 (nmul (f64_f32 (fl 256 1)) (cos32 m (f64_f32 (fl 1 1))))). set (yd := nf32 (nmul (f64_f32 (fl 256 1)) (sin32 m (f64_f32 (fl 1 1))))).
    assert (Wv : within 99 (f64_f32 (fl 256 1))) by (eapply W; [exact N6|apply Rabs_le; lra|lia]).
    pose proof (COS_bound (B2R (f64_f32 (fl 1 1)))) as Cb. pose proof (SIN_bound (B2R (f64_f32 (fl 1 1)))) as Sb.
    destruct (prod32 lm _ _ (cos (B2R (f64_f32 (fl 1 1)))) Wv Fc ltac:(apply Rabs_le; lra) Ec) as [Fxd Exd].
    destruct (prod32 lm _ _ (sin (B2R (f64_f32 (fl 1 1)))) Wv Fsn ltac:(apply Rabs_le; lra) Esn) as [Fyd Eyd].
    fold xd in Fxd, Exd. fold yd in Fyd, Eyd. rewrite (proj2 N5), (proj2 N6) in *. rewrite (Rabs_pos_eq 256) in Exd, Eyd by lra.
    assert (K : bpow radix2 (-149) <= / 1000) by (apply (Rle_trans _ (bpow radix2 (-10))); [apply bpow_le; lia|simpl; lra]).
    assert (Sz : forall (d : f64) t, Rabs (B2R d - 256 * t) <= bpow radix2 (-21) * 256 + bpow radix2 (-149) -> -1 <= t <= 1 -> Rabs (B2R d) <= 1000).
    { intros d t E Ht. simpl (bpow radix2 (-21)) in E. apply Rabs_le_inv in E. apply Rabs_le. lra. }
    pose proof (Sz xd _ Exd Cb) as Sxd. pose proof (Sz yd _ Eyd Sb) as Syd.
    set (e0 := dubins2d_aircraft 0 "Euler" (fl 200 1) (fl 400 1) (fl (-1) 1) (fl 1 1) (fl (-100) 1) (fl 100 1) (fl 0 1) (fl 0 1) (fl 1 1) (fl 256 1)).
    destruct (fly_euler_raw lm w (with_raw e0 (affine_raw (dubins2d_f32 lm m) dubins2d_g)) (dubins2d_f32 lm m) xd yd (fl 200 1) (fl 400 1) 0
      (fl (-1) 1) (fl 1 1) (fl (-100) 1) (fl 100 1) (fl 1 1) (f64_f32 (fl 0 1)) (f64_f32 (fl 0 1)) (f64_f32 (fl 1 1)) (f64_f32 (fl 256 1)) (fl 0 1) (fl 0 1))
      as (x' & y' & hd' & v' & R1 & R2 & [Fx' Ax] & _).
    1: reflexivity. 1: reflexivity.
    { eapply W; [split; [exact Fxd|reflexivity]|lra|lia]. }
    { eapply W; [split; [exact Fyd|reflexivity]|lra|lia]. }
    1: lia. 1: reflexivity. 1: reflexivity. 1: apply N1. 1: apply N2.
    { repeat (constructor; [eapply W; [eassumption|apply Rabs_le; lra|lia]|]). constructor. }
    { eapply W; [exact M2|apply Rabs_le; lra|lia]. }
    { rewrite f32_0. repeat (constructor; [eapply W; [eassumption|apply Rabs_le; lra|lia]|]). constructor. }
    { repeat constructor; apply M0. }
    1: reflexivity.
    eexists. exists [x'; y'; hd'; v']. split; [|split].
    - unfold fly_new2d, run_fresh, one_step. cbn [map fly_act fst snd]. fold e0. rewrite R1. cbn [bind run]. reflexivity.
    - exact R2.
    - intros (_ & D & _). cbn [one_step map fly_num fst snd fly fly1 limits_ex pose_ex px py phead pv] in D.
      rewrite (proj2 M2), !Rmult_1_l, Rplus_0_l in D. rewrite f32_0, (proj2 M0), (proj2 M2), Rplus_0_l, Rabs_R0, Rabs_R1, !Rmult_1_l, Rplus_0_l in Ax.
      pose proof (off_grid (B2R xd) (f32_fmt _)) as O.
      assert (Ax' : Rabs (B2R x' - B2R xd) <= / 10000000).
      { eapply Rle_trans; [exact Ax|]. assert (bpow radix2 (-700) <= / 1000000000) by (apply (Rle_trans _ (bpow radix2 (-30))); [apply bpow_le; lia|simpl; lra]).
        assert (bpow radix2 (-48) * Rabs (B2R xd) <= bpow radix2 (-48) * 1000) by (apply Rmult_le_compat_l; [apply bpow_ge_0|exact Sxd]).
        simpl (bpow radix2 (-48)) in *. lra. }
      apply Rabs_le_inv in D. apply Rabs_le_inv in Ax'. unfold Rabs in O. destruct (Rcase_abs _); lra.
  Qed.
End W.

(** The same flight from the same state, assigned as a float64 array. *)
Lemma assigned_near (lm : libm) (w : world f64) : accurate lm ->
  let a := dubins2d_aircraft (N := F64 lm) 0 "Euler" (fl 200 1) (fl 400 1) (fl (-1) 1) (fl 1 1) (fl (-100) 1) (fl 100 1)
    (fl 0 1) (fl 0 1) (fl 1 1) (fl 256 1) in
  exists e s, run (N := F64 lm) w (set_state a (A1 [fl 0 1; fl 0 1; fl 1 1; fl 256 1])) (map fly_act one_step) = Ok e /\
    e_state e = A1 s /\ flies (1 / 100000000) s (fly limits_ex pose_ex (map fly_num one_step)).
Proof.
  intros Ac. cbv zeta.
  assert (N1 : is_finite (f64_f32 (fl 200 1)) = true /\ B2R (f64_f32 (fl 200 1)) = 200) by flv.
  assert (N2 : is_finite (f64_f32 (fl 400 1)) = true /\ B2R (f64_f32 (fl 400 1)) = 400) by flv.
  assert (N6 : is_finite (fl 256 1) = true /\ B2R (fl 256 1) = 256) by flv.
  assert (M1 : is_finite (fl (-1) 1) = true /\ B2R (fl (-1) 1) = -1) by flv.
  assert (M2 : is_finite (fl 1 1) = true /\ B2R (fl 1 1) = 1) by flv.
  assert (M3 : is_finite (fl (-100) 1) = true /\ B2R (fl (-100) 1) = -100) by flv.
  assert (M4 : is_finite (fl 100 1) = true /\ B2R (fl 100 1) = 100) by flv.
  pose proof fl0 as M0.
  assert (W : forall a r, is_finite a = true /\ B2R a = r -> Rabs r <= 1024 -> within 100 a).
  { intros a r [F <-] H. split; [exact F|]. eapply Rle_trans; [exact H|]. apply (bpow_le radix2 10). lia. }
  assert (T : forall k : R, k <= 2 ^ 20 -> k <= bpow radix2 99).
  { intros k H. eapply Rle_trans; [exact H|]. replace (2 ^ 20) with (bpow radix2 20) by (simpl; lra). apply bpow_le. lia. }
  assert (Er : fly_error 402 1 400 1 100 (length one_step) <= 1 / 100000000).
  { unfold fly_error, step_error. cbn [length one_step]. change (INR 1) with 1.
    assert (P7 : bpow radix2 (-700) <= / 10 ^ 15).
    { apply (Rle_trans _ (bpow radix2 (-50))); [apply bpow_le; lia|simpl; lra]. }
    simpl (bpow radix2 (-48)). simpl (10 ^ 15) in P7. lra. }
  destruct (fly_main lm w (fl 200 1) (fl 400 1) (fl (-1) 1) (fl 1 1) (fl (-100) 1) (fl 100 1) 0 402 1 400 1 100
    (fl 0 1) (fl 0 1) (fl 1 1) (fl 256 1) (fl 0 1) (fl 0 1) (fl 1 1) (fl 256 1) one_step) as (e & s & R & Es & Fs).
  - exact Ac.
  - lia.
  - repeat (constructor; [tauto|]). constructor.
  - repeat (constructor; [tauto|]). constructor.
  - repeat (constructor; [eapply W; [eassumption|apply Rabs_le; lra]|]). constructor.
  - repeat (constructor; [first [rewrite (proj2 N1) | rewrite (proj2 N2) | rewrite (proj2 N6)]; apply Rabs_le; lra|]). constructor.
  - repeat (constructor; [first [rewrite (proj2 M1) | rewrite (proj2 M2)]; apply Rabs_le; lra|]). constructor.
  - repeat (constructor; [first [rewrite (proj2 M3) | rewrite (proj2 M4)]; apply Rabs_le; lra|]). constructor.
  - lra.
  - exact one_step_ok.
  - cbn [length one_step]. change (INR 1) with 1.
    repeat (constructor; [first [rewrite (proj2 M0) | rewrite (proj2 M2)]; rewrite Rabs_pos_eq; lra|]). constructor.
  - apply T. simpl. lra.
  - apply T. simpl. lra.
  - lra.
  - exists e, s. split; [exact R|]. split; [exact Es|]. rewrite (proj2 N1), (proj2 N2), (proj2 N6), (proj2 M0),
      (proj2 M1), (proj2 M2), (proj2 M3), (proj2 M4) in Fs. eapply flies_mono; [exact Er|exact Fs].
Qed.

(** A hundred steps of at most a second from the constructor. *)
Lemma new_ex (lm : libm) (m : libm32) (w : world f64) l : accurate lm -> accurate32 m -> length l = 100%nat -> Forall (fly_ok 1) l ->
  exists e s, fly_new2d lm m w 0 (fl 200 1) (fl 400 1) (fl (-1) 1) (fl 1 1) (fl (-100) 1) (fl 100 1)
      (fl 1000 1) (fl 500 1) (fl 3 1) (fl 250 1) (map fly_act l) = Ok e /\ e_state e = A1 s /\
    flies (15 / 10000) s (fly limits_ex {| px := 1000; py := 500; phead := 3; pv := 250 |} (map fly_num l)).
Proof.
  intros Ac Am Ll Fo.
  assert (N1 : is_finite (f64_f32 (fl 200 1)) = true /\ B2R (f64_f32 (fl 200 1)) = 200) by flv.
  assert (N2 : is_finite (f64_f32 (fl 400 1)) = true /\ B2R (f64_f32 (fl 400 1)) = 400) by flv.
  assert (N3 : is_finite (f64_f32 (fl 1000 1)) = true /\ B2R (f64_f32 (fl 1000 1)) = 1000) by flv.
  assert (N4 : is_finite (f64_f32 (fl 500 1)) = true /\ B2R (f64_f32 (fl 500 1)) = 500) by flv.
  assert (N5 : is_finite (f64_f32 (fl 3 1)) = true /\ B2R (f64_f32 (fl 3 1)) = 3) by flv.
  assert (N6 : is_finite (f64_f32 (fl 250 1)) = true /\ B2R (f64_f32 (fl 250 1)) = 250) by flv.
  assert (M1 : is_finite (fl (-1) 1) = true /\ B2R (fl (-1) 1) = -1) by flv.
  assert (M2 : is_finite (fl 1 1) = true /\ B2R (fl 1 1) = 1) by flv.
  assert (M3 : is_finite (fl (-100) 1) = true /\ B2R (fl (-100) 1) = -100) by flv.
  assert (M4 : is_finite (fl 100 1) = true /\ B2R (fl 100 1) = 100) by flv.
  assert (W : forall a r, is_finite a = true /\ B2R a = r -> Rabs r <= 1024 -> within 100 a).
  { intros a r [F <-] H. split; [exact F|]. eapply Rle_trans; [exact H|]. apply (bpow_le radix2 10). lia. }
  assert (T : forall k : R, k <= 2 ^ 20 -> k <= bpow radix2 99).
  { intros k H. eapply Rle_trans; [exact H|]. replace (2 ^ 20) with (bpow radix2 20) by (simpl; lra). apply bpow_le. lia. }
  pose proof fly_num_ex as Er. rewrite <- Ll in Er.
  assert (Fe : first_error 1 400 <= 5 / 10000).
  { unfold first_error. assert (bpow radix2 (-140) <= / 1000000) by (apply (Rle_trans _ (bpow radix2 (-20))); [apply bpow_le; lia|simpl; lra]).
    simpl (bpow radix2 (-20)). lra. }
  destruct (fly_new lm m w (fl 200 1) (fl 400 1) (fl (-1) 1) (fl 1 1) (fl (-100) 1) (fl 100 1) 0 41101 1 400 1 100
    (fl 1000 1) (fl 500 1) (fl 3 1) (fl 250 1) l) as (e & s & R & Es & Fs).
  - exact Ac.
  - exact Am.
  - lia.
  - repeat (constructor; [tauto|]). constructor.
  - repeat (constructor; [eapply W; [eassumption|apply Rabs_le; lra]|]). constructor.
  - repeat (constructor; [first [rewrite (proj2 N1) | rewrite (proj2 N2) | rewrite (proj2 N6)]; apply Rabs_le; lra|]). constructor.
  - repeat (constructor; [first [rewrite (proj2 M1) | rewrite (proj2 M2)]; apply Rabs_le; lra|]). constructor.
  - repeat (constructor; [first [rewrite (proj2 M3) | rewrite (proj2 M4)]; apply Rabs_le; lra|]). constructor.
  - lra.
  - exact Fo.
  - rewrite Ll. replace (INR 100) with 100 by (simpl; lra).
    repeat (constructor; [first [rewrite (proj2 N3) | rewrite (proj2 N4) | rewrite (proj2 N5)]; rewrite Rabs_pos_eq; lra|]). constructor.
  - apply T. simpl. lra.
  - apply T. simpl. lra.
  - lra.
  - exists e, s. split; [exact R|]. split; [exact Es|]. rewrite (proj2 N1), (proj2 N2), (proj2 N3), (proj2 N4), (proj2 N5), (proj2 N6),
      (proj2 M1), (proj2 M2), (proj2 M3), (proj2 M4) in Fs. eapply flies_mono; [|exact Fs]. lra.
Qed.

(** A float32 library: the exact values rounded to multiples of 2^-52 and then to float32. *)
Definition m_grid : libm32 :=
  {| sin32 := fun x => f64_f32 (grid (sin (B2R x))); cos32 := fun x => f64_f32 (grid (cos (B2R x))); tan32 := fun x => f64_f32 (near64 (tan (B2R x))) |}.
Lemma accurate32_ex : accurate32 m_grid.
Proof.
  assert (G : forall t, -1 <= t <= 1 -> is_finite (f64_f32 (grid t)) = true /\ Rabs (B2R (f64_f32 (grid t)) - t) <= bpow radix2 (-22)).
  { intros t Ht. destruct (grid_ok t ltac:(apply Rabs_le; lra)) as [F E].
    assert (S : Rabs (B2R (grid t)) <= 2) by (apply Rabs_le_inv in E; simpl (bpow radix2 (-52)) in E; apply Rabs_le; lra).
    destruct (f32_err (grid t) F) as [F' E'].
    { eapply Rle_trans; [exact S|]. apply (bpow_le radix2 1). lia. }
    split; [exact F'|]. replace (B2R (f64_f32 (grid t)) - t) with ((B2R (f64_f32 (grid t)) - B2R (grid t)) + (B2R (grid t) - t)) by ring.
    eapply Rle_trans; [apply Rabs_triang|].
    assert (bpow radix2 (-24) * Rabs (B2R (grid t)) <= bpow radix2 (-24) * 2) by (apply Rmult_le_compat_l; [apply bpow_ge_0|exact S]).
    assert (bpow radix2 (-150) <= bpow radix2 (-52)) by (apply bpow_le; lia).
    simpl (bpow radix2 (-24)) in *. simpl (bpow radix2 (-52)) in *. simpl (bpow radix2 (-22)). lra. }
  intros a _. split; apply G; [apply COS_bound|apply SIN_bound].
Qed.
Lemma accurate_tan32_ex : accurate_tan32 m_grid.
Proof.
  intros a _ Ha. change (tan32 m_grid a) with (f64_f32 (near64 (tan (B2R a)))). destruct (near64_ok _ Ha) as [F E].
  assert (S : Rabs (B2R (near64 (tan (B2R a)))) <= bpow radix2 101).
  { rewrite E. eapply Rle_trans; [apply (rnd_bounded 100); [lia|exact Ha]|apply bpow_le; lia]. }
  destruct (f32_err _ F S) as [F' E']. split; [exact F'|].
  pose proof (rnd_err (tan (B2R a))) as R. rewrite <- E in R. set (n := B2R (near64 (tan (B2R a)))) in *. set (t := tan (B2R a)) in *.
  replace (B2R (f64_f32 (near64 t)) - t) with ((B2R (f64_f32 (near64 t)) - n) + (n - t)) by ring.
  eapply Rle_trans; [apply Rabs_triang|].
  assert (Sn : Rabs n <= Rabs (n - t) + Rabs t) by (replace n with ((n - t) + t) at 1 by ring; apply Rabs_triang).
  assert (K1 : bpow radix2 (-140) = 1024 * bpow radix2 (-150)) by (change (-140)%Z with (10 + -150)%Z; rewrite bpow_plus; reflexivity).
  assert (K2 : eta64 <= bpow radix2 (-150)) by (unfold eta64; apply bpow_le; lia).
  assert (K3 : u64 <= bpow radix2 (-52)) by (unfold u64; apply bpow_le; lia).
  pose proof (Rabs_pos t) as P. pose proof (bpow_gt_0 radix2 (-150)) as K0.
  assert (K4 : u64 * Rabs t <= bpow radix2 (-52) * Rabs t) by (apply Rmult_le_compat_r; assumption).
  rewrite K1. simpl (bpow radix2 (-24)) in *. simpl (bpow radix2 (-52)) in *. simpl (bpow radix2 (-22)). lra.
Qed.
