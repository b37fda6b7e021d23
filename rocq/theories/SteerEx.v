(** A spacecraft steered for a hundred steps (C122). *)
From Coq Require Import String ZArith Reals Bool List Lra Lia.
From Flocq Require Import Core.Core IEEE754.BinarySingleNaN.
From Verif Require Import PyBase Num Arr BaseModel Cwh Rot2d Float64 XTac SpecCwh SpecRound SpecFly SpecSingle F64Wrap FlyEx Fly3Ex FreshEx SingleRound SingleEx SpecSteer SteerRun.
Import List ListNotations.
Local Open Scope R_scope.

Lemma steer_grow S H A h fx fy mz p : s_mass S <> 0 -> 0 <= h <= H -> 0 <= s_vel S <= A -> 1 <= A -> sized A p ->
  sized ((1 + H * steer_lip (s_mass S) (s_n S)) * A) (steer1 S h fx fy mz p).
Proof.
  intros m0 Hh V A1 P. destruct (K_parts S m0) as (n2 & n1 & im & EK). set (K := steer_lip _ _) in *. set (n := s_n S) in *. set (m := s_mass S) in *.
  unfold sized in *. rewrite !Forall_cons_iff in P. destruct P as (Px & Py & Pvx & Pvy & Pw & _).
  assert (K1 : 1 <= K) by lra. assert (HKA : (1 + H * K) * A = A + H * (K * A)) by ring.
  assert (KA : K * A = A + 3 * n ^ 2 * A + 2 * Rabs n * A + 2 * / Rabs m * A) by (rewrite EK; ring).
  assert (T : forall a b, Rabs a <= A -> Rabs b <= K * A -> Rabs (a + h * b) <= (1 + H * K) * A).
  { intros a b Ha Hb. eapply Rle_trans; [apply Rabs_triang|]. rewrite Rabs_mult, (Rabs_pos_eq h) by lra. pose proof (Rabs_pos b).
    assert (h * Rabs b <= H * (K * A)) by (apply Rmult_le_compat; lra). lra. }
  assert (P1 : 0 <= 3 * n ^ 2 * A) by (apply Rmult_le_pos; lra). assert (P2 : 0 <= 2 * Rabs n * A) by (apply Rmult_le_pos; lra).
  assert (P3 : 0 <= 2 * / Rabs m * A) by (apply Rmult_le_pos; lra).
  assert (N : forall v, Rabs v <= A -> Rabs (2 * n * v) <= 2 * Rabs n * A).
  { intros v Hv. rewrite !Rabs_mult, (Rabs_pos_eq 2) by lra. apply Rmult_le_compat_l; lra. }
  assert (X : Rabs (3 * n ^ 2 * tx p) <= 3 * n ^ 2 * A).
  { rewrite !Rabs_mult, (Rabs_pos_eq 3), (Rabs_pos_eq (n ^ 2)) by lra. apply Rmult_le_compat_l; lra. }
  assert (F : forall a b, Rabs a <= 1 -> Rabs b <= 1 -> Rabs ((a * clipR (-1) 1 fx + b * clipR (-1) 1 fy) / m) <= 2 * / Rabs m * A).
  { intros a b Ha Hb. unfold Rdiv. rewrite Rabs_mult, Rabs_inv. replace (2 * / Rabs m * A) with (2 * A * / Rabs m) by ring. apply Rmult_le_compat_r; [lra|].
    eapply Rle_trans; [apply Rabs_triang|]. rewrite !Rabs_mult. pose proof (clip_unit fx). pose proof (clip_unit fy).
    assert (Rabs a * Rabs (clipR (-1) 1 fx) <= 1 * 1) by (apply Rmult_le_compat; auto; apply Rabs_pos).
    assert (Rabs b * Rabs (clipR (-1) 1 fy) <= 1 * 1) by (apply Rmult_le_compat; auto; apply Rabs_pos). lra. }
  assert (C : Rabs (cos (tth p)) <= 1) by (apply Rabs_le, COS_bound). assert (D : Rabs (sin (tth p)) <= 1) by (apply Rabs_le, SIN_bound).
  assert (D' : Rabs (- sin (tth p)) <= 1) by (rewrite Rabs_Ropp; exact D).
  unfold steer1. cbn [tx ty tth tvx tvy tw]. fold m n. repeat apply Forall_cons; [| | | | |apply Forall_nil].
  - apply T; [exact Px|]. lra.
  - apply T; [exact Py|]. lra.
  - apply T; [exact Pvx|]. pose proof (F _ _ C D') as F1. unfold Rminus. rewrite Ropp_mult_distr_l.
    eapply Rle_trans; [apply Rabs_triang|]. pose proof (Rabs_triang (3 * n ^ 2 * tx p) (2 * n * tvy p)). pose proof (N _ Pvy). lra.
  - apply T; [exact Pvy|]. pose proof (F _ _ D C) as F1. eapply Rle_trans; [apply Rabs_triang|]. pose proof (N _ Pvx) as N1.
    replace (- 2 * n * tvx p) with (- (2 * n * tvx p)) by ring. rewrite Rabs_Ropp. lra.
  - eapply Rle_trans; [apply clip_in; lra|]. assert (0 <= H * (K * A)) by (apply Rmult_le_pos; lra). lra.
Qed.
Lemma steer_sized S H A l p : s_mass S <> 0 -> 0 <= H -> 0 <= s_vel S <= A -> 1 <= A -> Forall (fun c => 0 <= fst c <= H) l -> sized A p ->
  sized ((1 + H * steer_lip (s_mass S) (s_n S)) ^ length l * A) (steer S p l).
Proof.
  intros m0 H0. destruct (K_parts S m0) as (n2 & n1 & im & EK). set (K := steer_lip _ _) in *. assert (0 <= H * K) by (apply Rmult_le_pos; lra).
  revert A p. induction l as [|[h [[fx fy] mz]] l IH]; intros A p V A1 L P; cbn [length pow steer].
  - rewrite Rmult_1_l. exact P.
  - rewrite (Rmult_comm (1 + H * K)), Rmult_assoc. inversion L as [|? ? L1 L2]; subst. cbn [fst] in L1.
    assert (1 * A <= (1 + H * K) * A) by (apply Rmult_le_compat_r; lra). apply IH; [lra|lra|exact L2|]. apply steer_grow; auto.
Qed.
Lemma sized_le A B p : A <= B -> sized A p -> sized B p.
Proof. intros L. apply Forall_impl. intros a Ha. lra. Qed.

Lemma lip_ex : 2 <= steer_lip 2 (1 / 1024) <= 201 / 100.
Proof. unfold steer_lip. rewrite !Rabs_pos_eq by lra. lra. Qed.
Lemma pow_ex k : (k <= 100)%nat -> 1 <= (1 + 1 / 100 * steer_lip 2 (1 / 1024)) ^ k <= 8.
Proof.
  intros Hk. pose proof lip_ex. set (g := 1 + 1 / 100 * steer_lip 2 (1 / 1024)). assert (G : 1 <= g <= 10201 / 10000) by (unfold g; lra).
  split; [apply pow_R1_Rle; lra|]. apply (Rle_trans _ (g ^ 100)); [apply Rle_pow; [lra|exact Hk]|].
  apply (Rle_trans _ ((10201 / 10000) ^ (10 * 10))); [apply pow_incr; lra|]. rewrite pow_mult.
  apply (Rle_trans _ ((1221 / 1000) ^ 10)); [apply pow_incr; split; [apply pow_le; lra|lra]|lra].
Qed.
Lemma err_ex k : (k <= 100)%nat -> steer_error 1000 (1 / 100) (steer_lip 2 (1 / 1024)) 1 k <= 1 / 200.
Proof.
  intros Hk. pose proof lip_ex as L. pose proof (pow_ex k Hk) as P. unfold steer_error. set (g := (1 + _) ^ k) in *.
  assert (Hi : 0 <= INR k <= 100) by (split; [apply pos_INR|]; replace 100 with (INR 100) by (cbn; ring); apply le_INR, Hk).
  assert (E : 0 <= step_single 1000 (1 / 100) (steer_lip 2 (1 / 1024)) 1 <= 6 / 1000000).
  { unfold step_single. set (K := steer_lip _ _) in *. assert (Q : bpow radix2 (-140) <= bpow radix2 (-44)) by (apply bpow_le; lia). pose proof (bpow_ge_0 radix2 (-140)).
    assert (0 <= bpow radix2 (-140) * (1 + 1 / 100) <= bpow radix2 (-44) * 2) by (split; [apply Rmult_le_pos; lra|apply Rmult_le_compat; lra]).
    change (bpow radix2 (-44)) with (/ 17592186044416) in *. change (bpow radix2 (-46)) with (/ 70368744177664). change (bpow radix2 (-22)) with (/ 4194304). lra. }
  set (s := step_single _ _ _ _) in *. apply (Rle_trans _ (100 * 8 * (6 / 1000000))); [|lra].
  apply Rmult_le_compat; [apply Rmult_le_pos; lra|lra|apply Rmult_le_compat; lra|lra].
Qed.

Section W.
  Variables (lm : libm) (w : world f64).
  Hypothesis Ac : accurate lm.
  Local Hint Extern 0 (Num f64) => exact (F64 lm) : typeclass_instances.

  Lemma steer_ex l : Forall (steer_ok (1 / 100)) l -> (length l <= 100)%nat -> exists e0 e' s',
    craft lm w false = Ok e0 /\
    run w (set_state e0 (A1 [fl 50 1; fl (-20) 1; fl 1 2; fl 2 1; fl (-1) 1; fl 1 4])) (map steer_act l) = Ok e' /\ e_state e' = A1 s' /\
    steers (1 / 200) s' (steer {| s_mass := 2; s_inertia := 1; s_acc := 1; s_vel := 1; s_moment := 1; s_n := 1 / 1024 |}
      {| tx := 50; ty := -20; tth := 1 / 2; tvx := 2; tvy := -1; tw := 1 / 4 |} (map steer_num l)).
  Proof.
    intros Hl Hk. destruct (craft_ok lm w) as [e0 Ec]. exists e0. destruct vals as (V2 & V1 & Vn).
    assert (W1 : within 40 (fl 1 1)) by (eapply small; [exact V1|rewrite Rabs_R1; lra|lia]).
    assert (Va : is_finite (fl 50 1) = true /\ B2R (fl 50 1) = 50) by flv.
    assert (Vb : is_finite (fl (-20) 1) = true /\ B2R (fl (-20) 1) = -20) by flw.
    assert (Vc : is_finite (fl 1 2) = true /\ B2R (fl 1 2) = 1 / 2) by flv.
    assert (Vd : is_finite (fl (-1) 1) = true /\ B2R (fl (-1) 1) = -1) by flw.
    assert (Vq : is_finite (fl 1 4) = true /\ B2R (fl 1 4) = 1 / 4) by flv.
    assert (M : B2R (nmul (fl 1 1) (fl 1 1)) = 1).
    { replace (nmul (fl 1 1) (fl 1 1)) with (fl 1 1) by (apply f64_eq; vm_compute; reflexivity). apply V1. }
    assert (P0 : bpow radix2 (-100) <= 1) by (apply (bpow_le radix2 (-100) 0); lia).
    pose proof (err_ex _ Hk) as El.
    destruct (steer_run lm w (fl 2 1) (fl 1 1) (fl 1 1) (fl 1 1) (fl 1 1) (fl 1 1) (fl 1 1) (fl 1 1) (fl 1 1) (fl 1 1024) 0 false
      _ _ _ _ _ _ e0 (A1 [fl 50 1; fl (-20) 1; fl 1 2; fl 2 1; fl (-1) 1; fl 1 4]) [] _ (fl 50 1) (fl (-20) 1) (fl 1 2) (fl 2 1) (fl (-1) 1) (fl 1 4)
      1000 (1 / 100) 1 l Ac Ec (limit_ex lm) (limit_ex lm) eq_refl) as (e' & s' & R1 & R2 & R3); try assumption; try lia; try apply V2;
      try rewrite (proj2 V1) in *; try rewrite (proj2 V2) in *; try rewrite (proj2 Vn) in *; try rewrite M in *.
    - rewrite Rabs_pos_eq by lra. lra.
    - lra.
    - lra.
    - lra.
    - split; [apply Vn|]. rewrite (proj2 Vn), Rabs_pos_eq by lra. cbn. lra.
    - repeat (constructor; [first [apply Va|apply Vb|apply Vc|apply V2|apply Vd|apply Vq]|]). constructor.
    - reflexivity.
    - rewrite (proj2 Vc), Rabs_pos_eq by lra. lra.
    - rewrite (proj2 Vq), Rabs_pos_eq by lra. lra.
    - split; [lra|]. apply (Rle_trans _ (bpow radix2 10)); [cbn; lra|apply bpow_le; lia].
    - lra.
    - lra.
    - lra.
    - rewrite (proj2 Va), (proj2 Vb), (proj2 Vc), (proj2 Vd), (proj2 Vq). intros l1 l2 ->. rewrite app_length in Hk. apply Forall_app in Hl. destruct Hl as [Hl _].
      assert (Hk1 : (length (map steer_num l1) <= 100)%nat) by (rewrite map_length; lia). pose proof (pow_ex _ Hk1) as G.
      eapply sized_le; [|apply (steer_sized _ (1 / 100) 50)]; cbn [s_mass s_vel s_n]; try lra.
      + apply Forall_map. eapply Forall_impl; [|exact Hl]. intros [h [[fx fy] mz]] (_ & Q & _). exact Q.
      + repeat apply Forall_cons; try apply Forall_nil; cbn [tx ty tvx tvy tw]; apply Rabs_le; lra.
    - exists e', s'. split; [exact Ec|]. split; [exact R1|]. split; [exact R2|].
      rewrite (proj2 Va), (proj2 Vb), (proj2 Vc), (proj2 Vd), (proj2 Vq) in R3.
      destruct s' as [|x' [|y' [|th' [|vx' [|vy' [|w' [|? ?]]]]]]]; try contradiction.
      destruct R3 as (G & A1 & A2 & [k A3] & A4 & A5 & A6). split; [exact G|].
      repeat (split; [first [eapply Rle_trans; [eassumption|exact El]|exists k; eapply Rle_trans; [exact A3|exact El]]|]). eapply Rle_trans; [eassumption|exact El].
  Qed.
End W.
