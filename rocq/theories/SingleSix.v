(** One step of the spacecraft with attitude in binary64 arithmetic. *)
From Coq Require Import String Bool Arith ZArith Lia Reals Lra List.
From Flocq Require Import Core.Core Relative IEEE754.BinarySingleNaN.
From Verif Require Import PyBase Num Arr BaseModel Cwh SixDof XReal Float64 NumOrdLemmas ArrLemmas BaseLemmas BaseLemmas2 BaseLemmas3
  LimLemmas SixDofLemmas SpecCwh SpecSixDof SpecRound SpecFly SpecSingle F64Bound F64Wrap F64Err RoundCwh LinRound FlyRound Fly3Round F32 SingleRound.
Import List ListNotations.
Local Open Scope R_scope.

Lemma ap_sub k1 G1 D1 (a : f64) t1 g1 k2 G2 D2 b t2 g2 : ap k1 G1 D1 a t1 g1 -> ap k2 G2 D2 b t2 g2 ->
  ((k1 <=? 100)%nat && (k2 <=? 100)%nat && (0 <=? G1) && (G1 <=? 900) && (0 <=? G2) && (G2 <=? 900) &&
   (-1075 <=? D1) && (D1 <=? 0) && (-1075 <=? D2) && (D2 <=? 0) = true)%Z%bool ->
  ap (S (Nat.max k1 k2)) (Z.max G1 G2 + 1) (Z.max D1 D2 + 3) (Bminus mode_NE a b) (t1 - t2) (g1 + g2).
Proof.
  intros A1 A2 C. pose proof (ap_add' _ _ _ _ _ _ _ _ _ _ _ _ A1 (ap_opp _ _ _ _ _ _ A2) C) as A.
  assert (Q : is_finite (Bminus mode_NE a b) = true /\ B2R (Bminus mode_NE a b) = B2R (Bplus mode_NE a (Bopp b))).
  { repeat (apply andb_true_iff in C as [C ?]). repeat match goal with H : (_ <=? _)%Z = true |- _ => apply Z.leb_le in H end.
    apply Nat.leb_le in C. match goal with H : (_ <=? _)%nat = true |- _ => apply Nat.leb_le in H end.
    pose proof (ap_size k1 G1 D1 a t1 g1 ltac:(lia) ltac:(lia) A1) as S1. pose proof (ap_size k2 G2 D2 b t2 g2 ltac:(lia) ltac:(lia) A2) as S2.
    set (G := Z.max G1 G2) in *.
    assert (B1 : bounded (G + 2) a) by (eapply bounded_mono; [|exact S1]; lia).
    assert (B2 : bounded (G + 2) b) by (eapply bounded_mono; [|exact S2]; lia).
    pose proof (bounded_sub (G + 2) a b ltac:(lia) B1 B2) as [F3 _]. split; [exact F3|].
    assert (L : Rabs (rnd64 (B2R a - B2R b)) < bpow radix2 1024).
    { apply (Rle_lt_trans _ (bpow radix2 (G + 2 + 1))); [|apply bpow_lt; lia].
      apply rnd_bounded; [lia|]. destruct B1 as [_ B1], B2 as [_ B2]. rewrite (bpow2_S (G + 2)).
      eapply Rle_trans; [apply Rabs_triang|]. rewrite Rabs_Ropp. lra. }
    rewrite (proj1 (minus64 a b (proj1 B1) (proj1 B2) L)).
    destruct (plus64 a (Bopp b) (proj1 B1)) as [E _].
    - rewrite is_finite_Bopp. apply B2.
    - rewrite B2R_Bopp. exact L.
    - rewrite E, B2R_Bopp. reflexivity. }
  destruct Q as [F E]. destruct A as [_ Ea Ta Ga]. split; [exact F| |exact Ta|exact Ga]. rewrite E. exact Ea.
Qed.

Lemma le_diff a b : 0 <= b - a -> a <= b.
Proof. lra. Qed.

Lemma stopR_near lo hi x a b : Rabs (stopR lo hi x a - stopR lo hi x b) <= Rabs (a - b).
Proof. unfold stopR, Rmin, Rmax. repeat destruct (Rle_dec _ _); unfold Rabs; repeat destruct (Rcase_abs _); lra. Qed.

(** As [follow_rate], with a limit [S] on the rate. *)
Lemma follow_stop (S : R -> R) (p : f64) a t g x h tG gG Gt : (forall a b, Rabs (S a - S b) <= Rabs (a - b)) ->
  is_finite p = true -> Rabs (B2R p - t) <= bpow radix2 (-46) * g + bpow radix2 (-700) -> Rabs t <= g -> g <= bpow radix2 100 -> 0 <= gG ->
  Rabs (a - (x + h * S (B2R (f64_f32 p) + tG))) <= bpow radix2 (-46) * (Rabs x + Rabs h * (Rabs (B2R (f64_f32 p)) + gG)) + bpow radix2 (-700) ->
  g + gG <= Gt -> Rabs (a - (x + h * S (t + tG))) <= single_error x h Gt.
Proof.
  intros HS Fp Ep Ht Hg HG Ea HT. pose proof (Rabs_pos t) as G0. pose proof (bpow_gt_0 radix2 (-150)) as W0.
  assert (Et : Rabs (t - t) <= bpow radix2 (-24) * g + 5 * bpow radix2 (-150)).
  { rewrite Rminus_eq_0, Rabs_R0. pose proof (Rmult_le_pos _ _ (Rlt_le _ _ (bpow_gt_0 radix2 (-24))) (Rle_trans _ _ _ G0 Ht)). lra. }
  destruct (cast_rate p t g t g Fp Ep Ht Et ltac:(lra) Ht (conj (Rle_trans _ _ _ G0 Ht) Hg)) as (_ & Eq & Bq).
  unfold single_error. destruct pows as (P1 & P2 & P3 & P4 & P5 & P6). rewrite P1, P5.
  replace (a - (x + h * S (t + tG))) with ((a - (x + h * S (B2R (f64_f32 p) + tG))) + h * (S (B2R (f64_f32 p) + tG) - S (t + tG))) by ring.
  eapply Rle_trans; [apply Rabs_triang|]. rewrite Rabs_mult.
  set (q := B2R (f64_f32 p)) in *. set (u := bpow radix2 (-24)) in *. set (w := bpow radix2 (-150)) in *. set (v := bpow radix2 (-700)) in *.
  pose proof (Rabs_pos h) as H0. set (H := Rabs h) in *.
  assert (A0 : Rabs (S (q + tG) - S (t + tG)) <= Rabs (q - t)).
  { eapply Rle_trans; [apply HS|]. replace (q + tG - (t + tG)) with (q - t) by ring. apply Rle_refl. }
  assert (A1 : H * Rabs (S (q + tG) - S (t + tG)) <= H * (3 * u * g + 20 * w)) by (apply Rmult_le_compat_l; [exact H0|lra]).
  assert (A2 : bpow radix2 (-46) * (Rabs x + H * (Rabs q + gG)) <= bpow radix2 (-46) * Rabs x + H * (/ 2 * u * (g + gG) + w)).
  { rewrite Rmult_plus_distr_l. apply Rplus_le_compat_l. rewrite P2.
    replace (4 * (u * u) * (H * (Rabs q + gG))) with (H * (u * (4 * u * (Rabs q + gG)))) by ring. apply Rmult_le_compat_l; [exact H0|].
    assert (4 * u * (Rabs q + gG) <= / 4 * (Rabs q + gG)) by (apply Rmult_le_compat_r; [pose proof (Rabs_pos q); lra|lra]).
    assert (4 * u * (Rabs q + gG) <= / 2 * (g + gG) + 10 * w) by lra.
    apply (Rle_trans _ (u * (/ 2 * (g + gG) + 10 * w))); [apply Rmult_le_compat_l; lra|].
    assert (u * w <= / 16000000 * w) by (apply Rmult_le_compat_r; lra). lra. }
  assert (U0 : 0 <= u * g) by (apply Rmult_le_pos; lra). assert (U1 : 0 <= u * gG) by (apply Rmult_le_pos; lra).
  assert (A3 : H * (3 * u * g + 20 * w) + H * (/ 2 * u * (g + gG) + w) <= H * (4 * u * Gt + 1024 * w)).
  { rewrite <- Rmult_plus_distr_l. apply Rmult_le_compat_l; [exact H0|].
    assert (u * (g + gG) <= u * Gt) by (apply Rmult_le_compat_l; lra). lra. }
  lra.
Qed.

Section F.
  Variable lm : libm.
  Local Hint Extern 0 (Num f64) => exact (F64 lm) : typeclass_instances.

  (** A rate [p], cast to binary32, plus [c]. *)
  Lemma cast_sum k G D (p : f64) t g k2 G2 D2 (c : f64) tG gG : ap k G D p t g -> (k <= 64)%nat -> (D <= -700)%Z -> (G <= 100)%Z ->
    ap k2 G2 D2 c tG gG -> (k2 <= 40)%nat -> (0 <= G2 <= 300)%Z -> (-1075 <= D2 <= -800)%Z ->
    ap 41 301 (-797) (nadd (f64_f32 p) c) (B2R (f64_f32 p) + tG) (Rabs (B2R (f64_f32 p)) + gG).
  Proof.
    intros Ap K HD HG Ac K2 H2 D2'. assert (Hg : g <= bpow radix2 100) by (eapply Rle_trans; [exact (ap_g _ _ _ _ _ _ Ap)|apply bpow_le, HG]).
    destruct (ap_loose _ _ _ _ _ _ Ap K HD) as (Fp & Ep & Tp). pose proof (Rabs_pos t) as G0.
    assert (Et : Rabs (t - t) <= bpow radix2 (-24) * g + 5 * bpow radix2 (-150)).
    { rewrite Rminus_eq_0, Rabs_R0. pose proof (Rmult_le_pos _ _ (Rlt_le _ _ (bpow_gt_0 radix2 (-24))) (Rle_trans _ _ _ G0 Tp)). pose proof (bpow_gt_0 radix2 (-150)). lra. }
    pose proof (bpow_gt_0 radix2 (-150)) as W0.
    destruct (cast_rate p t g t g Fp Ep Tp Et ltac:(lra) Tp (conj (Rle_trans _ _ _ G0 Tp) Hg)) as (Fq & _ & Bq).
    assert (Wq : within 103 (f64_f32 p)).
    { split; [exact Fq|]. change 103%Z with (3 + 100)%Z. rewrite (bpow_plus radix2 3). change (bpow radix2 3) with 8.
      assert (1 <= bpow radix2 100) by (change 1 with (bpow radix2 0); apply bpow_le; lia).
      destruct pows as (_ & _ & Y3 & _ & _ & Y6). lra. }
    pose proof (ap_in _ 103 Wq) as Aq. pose proof (ap_mono k2 G2 D2 40 300 (-800) c tG gG K2 (proj2 H2) (proj2 D2') Ac) as Ac'.
    exact (nadd_ap lm _ _ _ _ _ _ _ _ _ _ _ _ Aq Ac' eq_refl).
  Qed.

  Lemma step_comp k G D (p : f64) t g k2 G2 D2 (c x h : f64) tG gG T Gt : ap k G D p t g -> (k <= 64)%nat -> (D <= -700)%Z -> (G <= 100)%Z ->
    ap k2 G2 D2 c tG gG -> (k2 <= 40)%nat -> (0 <= G2 <= 300)%Z -> (-1075 <= D2 <= -800)%Z -> within 80 x -> within 80 h ->
    T = t + tG -> g + gG <= Gt ->
    let r := nadd (f64_f32 p) c in
    is_finite r = true /\ is_finite (nadd x (nmul h r)) = true /\ follows (nadd x (nmul h r)) (B2R x) (B2R h) T Gt.
  Proof.
    intros Ap K HD Hg Ac K2 H2 D2' Wx Wh -> HT r.
    assert (Hg' : g <= bpow radix2 100) by (eapply Rle_trans; [exact (ap_g _ _ _ _ _ _ Ap)|apply bpow_le, Hg]). pose proof (cast_sum _ _ _ _ _ _ _ _ _ _ _ _ Ap K HD Hg Ac K2 H2 D2') as Ar.
    pose proof (nadd_ap lm _ _ _ _ _ _ _ _ _ _ _ _ (ap_in x 80 Wx) (nmul_ap lm _ _ _ _ _ _ _ _ _ _ _ _ (ap_in h 80 Wh) Ar eq_refl) eq_refl) as As.
    destruct (ap_loose _ _ _ _ _ _ As ltac:(cbn; lia) ltac:(cbn; lia)) as (F & E & _). destruct (ap_loose _ _ _ _ _ _ Ap K HD) as (Fp & Ep & Tp).
    split; [exact (ap_fin _ _ _ _ _ _ Ar)|]. split; [exact F|]. split; [exact F|].
    assert (0 <= gG) by (destruct Ac as [_ _ Z _]; pose proof (Rabs_pos tG); lra).
    apply (follow_stop (fun q => q) p _ t g _ _ tG gG); auto. intros. apply Rle_refl.
  Qed.

  Lemma turn_comp k G D (p : f64) t g k2 G2 D2 (c x h v : f64) tG gG T Gt : ap k G D p t g -> (k <= 64)%nat -> (D <= -700)%Z -> (G <= 100)%Z ->
    ap k2 G2 D2 c tG gG -> (k2 <= 40)%nat -> (0 <= G2 <= 300)%Z -> (-1075 <= D2 <= -800)%Z -> within 80 x -> within 80 h -> is_finite v = true ->
    T = t + tG -> g + gG <= Gt ->
    let r := nadd (f64_f32 p) c in let s := limited_dot (nneg v) v nninf npinf x r in
    turns (clip1 (nadd x (nmul h s)) (nneg v) v) (B2R x) (B2R h) (B2R v) T Gt.
  Proof.
    intros Ap K HD Hg Ac K2 H2 D2' Wx Wh Fv -> HT r s.
    assert (Hg' : g <= bpow radix2 100) by (eapply Rle_trans; [exact (ap_g _ _ _ _ _ _ Ap)|apply bpow_le, Hg]). pose proof (cast_sum _ _ _ _ _ _ _ _ _ _ _ _ Ap K HD Hg Ac K2 H2 D2') as Ar.
    assert (Fnv : is_finite (nneg v) = true) by (change (nneg v) with (Bopp v); rewrite is_finite_Bopp; exact Fv).
    assert (Env : B2R (nneg v) = - B2R v) by (change (nneg v) with (Bopp v); apply B2R_Bopp).
    pose proof (stop64 lm _ _ _ _ _ x _ _ _ Fnv Fv (proj1 Wx) Ar) as Az. fold r in Az. fold s in Az. rewrite Env in Az.
    pose proof (nadd_ap lm _ _ _ _ _ _ _ _ _ _ _ _ (ap_in x 80 Wx) (nmul_ap lm _ _ _ _ _ _ _ _ _ _ _ _ (ap_in h 80 Wh) Az eq_refl) eq_refl) as As.
    destruct (ap_loose _ _ _ _ _ _ As ltac:(cbn; lia) ltac:(cbn; lia)) as (F & E & _). destruct (ap_loose _ _ _ _ _ _ Ap K HD) as (Fp & Ep & Tp).
    destruct (clip64 lm _ _ _ F Fnv Fv) as [Fc Ec]. split; [exact Fc|]. rewrite Ec, Env. eapply Rle_trans; [apply clipR_near|].
    assert (0 <= gG) by (destruct Ac as [_ _ Z _]; pose proof (Rabs_pos tG); lra).
    apply (follow_stop (stopR (- B2R v) (B2R v) (B2R x)) p _ t g _ _ tG gG); auto. intros. apply stopR_near.
  Qed.

  (** [-1 * a] is exactly [- a]. *)
  Lemma neg_one (a : f64) : is_finite a = true -> is_finite (nmul (nZ (-1)) a) = true /\ B2R (nmul (nZ (-1)) a) = - B2R a.
  Proof.
    intros Fa. destruct (mone64 lm) as [F1 E1]. change (nmul (nZ (-1)) a) with (Bmult mode_NE (nZ (-1) : f64) a).
    set (c := nZ (-1) : f64) in *.
    pose proof (Bmult_correct 53 1024 _ _ mode_NE c a) as Q. rewrite E1 in Q.
    replace (-1 * B2R a) with (- B2R a) in Q by ring.
    rewrite round_generic in Q; [|apply valid_rnd_N|apply generic_format_opp, generic_format_B2R].
    rewrite Rlt_bool_true in Q by (rewrite Rabs_Ropp; apply abs_B2R_lt_emax).
    destruct Q as (Q1 & Q2 & _). split; [rewrite Q2, F1, Fa; reflexivity|exact Q1].
  Qed.

  (** A clipped command. *)
  Lemma command (f l : f64) : is_finite f = true -> within 60 l -> let L := B2R l in
    ap 0 60 (-1075) (clip1 f (nmul (nZ (-1)) l) l) (clipR (- L) L (B2R f)) (Rabs (clipR (- L) L (B2R f))).
  Proof.
    intros Ff [Fl Bl] L. destruct (neg_one l Fl) as [Fn En]. destruct (clip64 lm f _ _ Ff Fn Fl) as [Q1 Q2]. rewrite En in Q2. fold L in Q2.
    rewrite <- Q2. apply ap_in. split; [exact Q1|]. rewrite Q2. fold L in Bl. apply Rabs_le_inv in Bl. apply Rabs_le.
    unfold clipR, Rmin, Rmax. repeat destruct (Rle_dec _ _); lra.
  Qed.

  Definition nsub_ap k1 G1 D1 (a : f64) t1 g1 k2 G2 D2 b t2 g2 A1 A2 C :=
    (ap_sub k1 G1 D1 a t1 g1 k2 G2 D2 b t2 g2 A1 A2 C : ap _ _ _ (nsub a b) _ _).

  Lemma ap_half : ap 0 2 (-1075) (nlit 1 2 : f64) (1 / 2) (1 / 2).
  Proof.
    apply ap_val; [|apply Rabs_right; lra|lra]. split; [vm_compute; reflexivity|].
    rewrite (B2R_of _ false 4503599627370496 (-53)) by (vm_compute; reflexivity). unfold F2R. cbn. lra.
  Qed.

  Lemma ap_inv (i : f64) : is_finite i = true -> bpow radix2 (-20) <= Rabs (B2R i) -> ap 1 20 (-972) (ndiv n1 i) (1 / B2R i) (1 / Rabs (B2R i)).
  Proof.
    intros Fi Hi. assert (H : bpow radix2 (-100) <= Rabs (B2R i)) by (eapply Rle_trans; [|exact Hi]; apply bpow_le; lia).
    pose proof (ap_div 0 2 (-1075) n1 i 1 1 ltac:(lia) ltac:(lia) ltac:(lia) (ap1 lm) Fi H) as [A1 A2 A3 _]. split; auto.
    pose proof (bpow_gt_0 radix2 (-20)) as P. unfold Rdiv. rewrite Rmult_1_l. change (bpow radix2 20) with (bpow radix2 (- (-20))). rewrite bpow_opp.
    apply Rinv_le; assumption.
  Qed.

  Ltac apx := lazymatch goal with
    | |- ap _ _ _ (nadd _ _) _ _ => eapply nadd_ap; [apx|apx|reflexivity]
    | |- ap _ _ _ (nsub _ _) _ _ => eapply nsub_ap; [apx|apx|reflexivity]
    | |- ap _ _ _ (nmul _ _) _ _ => eapply nmul_ap; [apx|apx|reflexivity]
    | |- ap _ _ _ (nneg _) _ _ => eapply nneg_ap; apx
    | |- ap _ _ _ n0 _ _ => apply ap0
    | |- ap _ _ _ n1 _ _ => apply ap1
    | |- ap _ _ _ (nZ 2) _ _ => apply ap2
    | |- ap _ _ _ (nZ 3) _ _ => apply ap3
    | |- ap _ _ _ (nZ (-2)) _ _ => apply apm2
    | |- ap _ _ _ (nlit 1 2) _ _ => apply ap_half
    | |- _ => eassumption
    end.

  Definition row6 (a b c d e f u1 u2 u3 u4 u5 u6 : f64) : f64 :=
    nadd (nadd (nadd (nadd (nadd (nadd n0 (nmul a u1)) (nmul b u2)) (nmul c u3)) (nmul d u4)) (nmul e u5)) (nmul f u6).

  (** A row of the control matrix: what it contributes to a rate. *)
  Definition adds (c : f64) (t g : R) : Prop :=
    exists k G D g0, ap k G D c t g0 /\ (k <= 40)%nat /\ (0 <= G <= 300)%Z /\ (-1075 <= D <= -800)%Z /\ g0 <= g.

  Ltac num := first [apply Nat.leb_le | apply Z.leb_le]; vm_compute; reflexivity.
  Ltac nonneg := repeat (apply Rplus_le_le_0_compat || apply Rmult_le_pos || apply pow_le || assumption || lra).
  Ltac adds_tac t' := do 4 eexists; split; [eapply (ap_eq _ _ _ _ _ _ t'); [apx| |reflexivity]|split; [num|split; [split; num|split; [split; num|]]]].

  Lemma spin_rows (im q1 q2 q3 q4 u1 u2 u3 u4 u5 u6 : f64) M kM tM U1 U2 U3 U4 U5 U6 :
    ap 1 100 (-1074) im tM M -> 0 <= M -> kM = tM -> Forall (within 20) [q1; q2; q3; q4] ->
    ap 0 60 (-1075) u1 U1 (Rabs U1) -> ap 0 60 (-1075) u2 U2 (Rabs U2) -> ap 0 60 (-1075) u3 U3 (Rabs U3) ->
    ap 0 60 (-1075) u4 U4 (Rabs U4) -> ap 0 60 (-1075) u5 U5 (Rabs U5) -> ap 0 60 (-1075) u6 U6 (Rabs U6) ->
    let a := apply_quat (n1, n0, n0) (q1, q2, q3, q4) in let b := apply_quat (n0, n1, n0) (q1, q2, q3, q4) in let c := apply_quat (n0, n0, n1) (q1, q2, q3, q4) in
    let s := spin ((B2R q1, B2R q2, B2R q3), B2R q4) (U1, U2, U3) in
    let F := (Rabs (B2R q1) + Rabs (B2R q2) + Rabs (B2R q3) + Rabs (B2R q4)) ^ 2 * (Rabs U1 + Rabs U2 + Rabs U3) * M in
    adds (row6 (nmul im (fst (fst a))) (nmul im (fst (fst b))) (nmul im (fst (fst c))) n0 n0 n0 u1 u2 u3 u4 u5 u6) (fst (fst s) * kM) F /\
    adds (row6 (nmul im (snd (fst a))) (nmul im (snd (fst b))) (nmul im (snd (fst c))) n0 n0 n0 u1 u2 u3 u4 u5 u6) (snd (fst s) * kM) F /\
    adds (row6 (nmul im (snd a)) (nmul im (snd b)) (nmul im (snd c)) n0 n0 n0 u1 u2 u3 u4 u5 u6) (snd s * kM) F.
  Proof.
    intros Am M0 -> Wq A1 A2 A3 A4 A5 A6 a b c s F.
    apply Forall_cons_iff in Wq as [W1 Wq]. apply Forall_cons_iff in Wq as [W2 Wq]. apply Forall_cons_iff in Wq as [W3 Wq]. apply Forall_cons_iff in Wq as [W4 _].
    pose proof (ap_in q1 20 W1) as B1. pose proof (ap_in q2 20 W2) as B2. pose proof (ap_in q3 20 W3) as B3. pose proof (ap_in q4 20 W4) as B4.
    unfold a, b, c, s, F, row6. cbn [fst snd apply_quat hamilton_product spin qmul qconj scale3 SpecSixDof.add3 SpecSixDof.cross SpecSixDof.dot3].
    pose proof (Rabs_pos (B2R q1)). pose proof (Rabs_pos (B2R q2)). pose proof (Rabs_pos (B2R q3)). pose proof (Rabs_pos (B2R q4)).
    pose proof (Rabs_pos U1). pose proof (Rabs_pos U2). pose proof (Rabs_pos U3).
    split; [|split].
    - lazymatch goal with |- adds _ ?t _ => adds_tac t end.
      + ring.
      + clear -H H0 H1 H2 H3 H4 H5 M0. set (p1 := Rabs (B2R q1)) in *. set (p2 := Rabs (B2R q2)) in *. set (p3 := Rabs (B2R q3)) in *. set (p4 := Rabs (B2R q4)) in *.
        set (f1 := Rabs U1) in *. set (f2 := Rabs U2) in *. set (f3 := Rabs U3) in *. apply le_diff. ring_simplify. nonneg.
    - lazymatch goal with |- adds _ ?t _ => adds_tac t end.
      + ring.
      + clear -H H0 H1 H2 H3 H4 H5 M0. set (p1 := Rabs (B2R q1)) in *. set (p2 := Rabs (B2R q2)) in *. set (p3 := Rabs (B2R q3)) in *. set (p4 := Rabs (B2R q4)) in *.
        set (f1 := Rabs U1) in *. set (f2 := Rabs U2) in *. set (f3 := Rabs U3) in *. apply le_diff. ring_simplify. nonneg.
    - lazymatch goal with |- adds _ ?t _ => adds_tac t end.
      + ring.
      + clear -H H0 H1 H2 H3 H4 H5 M0. set (p1 := Rabs (B2R q1)) in *. set (p2 := Rabs (B2R q2)) in *. set (p3 := Rabs (B2R q3)) in *. set (p4 := Rabs (B2R q4)) in *.
        set (f1 := Rabs U1) in *. set (f2 := Rabs U2) in *. set (f3 := Rabs U3) in *. apply le_diff. ring_simplify. nonneg.
  Qed.

  Lemma plain_rows (im u1 u2 u3 u4 u5 u6 : f64) M tM U1 U2 U3 U4 U5 U6 :
    ap 1 100 (-1074) im tM M -> 0 <= M ->
    ap 0 60 (-1075) u1 U1 (Rabs U1) -> ap 0 60 (-1075) u2 U2 (Rabs U2) -> ap 0 60 (-1075) u3 U3 (Rabs U3) ->
    ap 0 60 (-1075) u4 U4 (Rabs U4) -> ap 0 60 (-1075) u5 U5 (Rabs U5) -> ap 0 60 (-1075) u6 U6 (Rabs U6) ->
    let F := 1 * (Rabs U1 + Rabs U2 + Rabs U3) * M in
    adds (row6 im n0 n0 n0 n0 n0 u1 u2 u3 u4 u5 u6) (U1 * tM) F /\
    adds (row6 n0 im n0 n0 n0 n0 u1 u2 u3 u4 u5 u6) (U2 * tM) F /\
    adds (row6 n0 n0 im n0 n0 n0 u1 u2 u3 u4 u5 u6) (U3 * tM) F.
  Proof.
    intros Am M0 A1 A2 A3 A4 A5 A6 F. unfold F, row6.
    pose proof (Rabs_pos U1). pose proof (Rabs_pos U2). pose proof (Rabs_pos U3).
    split; [|split]; lazymatch goal with |- adds _ ?t _ => adds_tac t end.
    all: try ring; apply le_diff; ring_simplify; nonneg.
  Qed.

  Lemma turn_rows (j0 j1 j2 u1 u2 u3 u4 u5 u6 : f64) t0 g0 t1 g1 t2 g2 U1 U2 U3 U4 U5 U6 :
    ap 1 20 (-972) j0 t0 g0 -> ap 1 20 (-972) j1 t1 g1 -> ap 1 20 (-972) j2 t2 g2 ->
    ap 0 60 (-1075) u1 U1 (Rabs U1) -> ap 0 60 (-1075) u2 U2 (Rabs U2) -> ap 0 60 (-1075) u3 U3 (Rabs U3) ->
    ap 0 60 (-1075) u4 U4 (Rabs U4) -> ap 0 60 (-1075) u5 U5 (Rabs U5) -> ap 0 60 (-1075) u6 U6 (Rabs U6) ->
    adds (row6 n0 n0 n0 n0 n0 n0 u1 u2 u3 u4 u5 u6) 0 0 /\
    adds (row6 n0 n0 n0 j0 n0 n0 u1 u2 u3 u4 u5 u6) (t0 * U4) (g0 * Rabs U4) /\
    adds (row6 n0 n0 n0 n0 j1 n0 u1 u2 u3 u4 u5 u6) (t1 * U5) (g1 * Rabs U5) /\
    adds (row6 n0 n0 n0 n0 n0 j2 u1 u2 u3 u4 u5 u6) (t2 * U6) (g2 * Rabs U6).
  Proof.
    intros J0 J1 J2 A1 A2 A3 A4 A5 A6. unfold row6.
    split; [|split; [|split]]; lazymatch goal with |- adds _ ?t _ => adds_tac t end.
    all: try ring; apply Req_le; ring.
  Qed.

  Lemma step_adds k G D (p : f64) t g (c x h : f64) tG gG T Gt : ap k G D p t g -> (k <= 64)%nat -> (D <= -700)%Z -> (G <= 100)%Z ->
    adds c tG gG -> within 80 x -> within 80 h -> T = t + tG -> g + gG <= Gt ->
    let r := nadd (f64_f32 p) c in
    is_finite r = true /\ is_finite (nadd x (nmul h r)) = true /\ follows (nadd x (nmul h r)) (B2R x) (B2R h) T Gt.
  Proof.
    intros Ap K HD HG (k2 & G2 & D2 & g0 & Ac & K2 & H2 & D2' & Hg) Wx Wh E HT.
    apply (step_comp k G D p t g k2 G2 D2 c x h tG g0); auto. lra.
  Qed.

  Lemma turn_adds k G D (p : f64) t g (c x h v : f64) tG gG T Gt : ap k G D p t g -> (k <= 64)%nat -> (D <= -700)%Z -> (G <= 100)%Z ->
    adds c tG gG -> within 80 x -> within 80 h -> is_finite v = true -> T = t + tG -> g + gG <= Gt ->
    let r := nadd (f64_f32 p) c in let s := limited_dot (nneg v) v nninf npinf x r in
    turns (clip1 (nadd x (nmul h s)) (nneg v) v) (B2R x) (B2R h) (B2R v) T Gt.
  Proof.
    intros Ap K HD HG (k2 & G2 & D2 & g0 & Ac & K2 & H2 & D2' & Hg) Wx Wh Fv E HT.
    apply (turn_comp k G D p t g k2 G2 D2 c x h v tG g0); auto. lra.
  Qed.

  Lemma sixdof_round (w : world f64) (e : entity f64) m I v0 v1 v2 n body samples h x y z q1 q2 q3 q4 vx vy vz wx wy wz (f1 f2 f3 f4 f5 f6 l1 l2 l3 l4 l5 l6 : f64) :
    sixdof_dyn m I (v0, v1, v2) n body samples "Euler" = Ok (e_dyn e) -> (samples <= 0)%Z ->
    e_cmax e = A1 [l1; l2; l3; l4; l5; l6] -> e_cmin e = amap (nmul (nZ (-1))) (e_cmax e) -> Forall (within 60) [l1; l2; l3; l4; l5; l6] ->
    is_finite m = true -> bpow radix2 (-100) <= Rabs (B2R m) ->
    Forall (within 20) [m00 I; m11 I; m22 I] -> Forall (fun i : f64 => bpow radix2 (-20) <= Rabs (B2R i)) [m00 I; m11 I; m22 I] ->
    Forall (fun v : f64 => is_finite v = true) [v0; v1; v2] -> within 0 n -> within 80 h ->
    Forall (within 80) [x; y; z; vx; vy; vz] -> Forall (within 20) [q1; q2; q3; q4; wx; wy; wz] ->
    Forall (fun f : f64 => is_finite f = true) [f1; f2; f3; f4; f5; f6] ->
    e_state e = A1 [x; y; z; q1; q2; q3; q4; vx; vy; vz; wx; wy; wz] ->
    let o := entity_step w e h (AArr (A1 [f1; f2; f3; f4; f5; f6])) in
    let u (f l : f64) := clipR (- B2R l) (B2R l) (B2R f) in
    exists s', o_res o = Ok tt /\ e_state (o_entity o) = A1 s' /\
      sixdof_follows body (B2R m) (B2R (m00 I)) (B2R (m11 I)) (B2R (m22 I)) (B2R v0) (B2R v1) (B2R v2) (B2R n) (B2R h)
        (map B2R [x; y; z; q1; q2; q3; q4; vx; vy; vz; wx; wy; wz]) [u f1 l1; u f2 l2; u f3 l3; u f4 l4; u f5 l5; u f6 l6] s'.
  Proof.
    intros Ed Sa C2 C1 Wl Fm Hm Wi Hi Fv Wn Wh Wp Wq Fu Es o u.
    rewrite C2 in C1. cbn [amap map] in C1.
    apply Forall_cons_iff in Wl as [Wl1 Wl]. apply Forall_cons_iff in Wl as [Wl2 Wl]. apply Forall_cons_iff in Wl as [Wl3 Wl].
    apply Forall_cons_iff in Wl as [Wl4 Wl]. apply Forall_cons_iff in Wl as [Wl5 Wl]. apply Forall_cons_iff in Wl as [Wl6 _].
    apply Forall_cons_iff in Wi as [Wi0 Wi]. apply Forall_cons_iff in Wi as [Wi1 Wi]. apply Forall_cons_iff in Wi as [Wi2 _].
    apply Forall_cons_iff in Hi as [Hi0 Hi]. apply Forall_cons_iff in Hi as [Hi1 Hi]. apply Forall_cons_iff in Hi as [Hi2 _].
    apply Forall_cons_iff in Fv as [Fv0 Fv]. apply Forall_cons_iff in Fv as [Fv1 Fv]. apply Forall_cons_iff in Fv as [Fv2 _].
    apply Forall_cons_iff in Wp as [Wx Wp]. apply Forall_cons_iff in Wp as [Wy Wp]. apply Forall_cons_iff in Wp as [Wz Wp].
    apply Forall_cons_iff in Wp as [Wvx Wp]. apply Forall_cons_iff in Wp as [Wvy Wp]. apply Forall_cons_iff in Wp as [Wvz _].
    apply Forall_cons_iff in Wq as [Wq1 Wq]. apply Forall_cons_iff in Wq as [Wq2 Wq]. apply Forall_cons_iff in Wq as [Wq3 Wq]. apply Forall_cons_iff in Wq as [Wq4 Wq].
    apply Forall_cons_iff in Wq as [Wwx Wq]. apply Forall_cons_iff in Wq as [Wwy Wq]. apply Forall_cons_iff in Wq as [Wwz _].
    pose proof (Forall_cons _ Wq1 (Forall_cons _ Wq2 (Forall_cons _ Wq3 (Forall_cons _ Wq4 (Forall_nil _))))) as WQ.
    apply Forall_cons_iff in Fu as [Ff1 Fu]. apply Forall_cons_iff in Fu as [Ff2 Fu]. apply Forall_cons_iff in Fu as [Ff3 Fu].
    apply Forall_cons_iff in Fu as [Ff4 Fu]. apply Forall_cons_iff in Fu as [Ff5 Fu]. apply Forall_cons_iff in Fu as [Ff6 _].
    destruct (sixdof_dyn_inv _ _ _ _ _ _ _ _ _ _ Ed) as (Dm & DM & Dsm & DsM & Dw & Ds & De & A & B & Gm & Dr).
    destruct (inv64 lm m Fm Hm) as (im & Im & Aim).
    unfold generate_cwh_matrices in Gm. rewrite Im in Gm. cbn [bind py_assert String.eqb Ascii.eqb Bool.eqb orb] in Gm.
    pose proof (f_equal (fun r => match r with Ok p => fst p | Err _ => A end) Gm) as GA. cbn [fst] in GA.
    pose proof (f_equal (fun r => match r with Ok p => snd p | Err _ => B end) Gm) as GB. cbn [snd] in GB. clear Gm. subst A. subst B.
    assert (W20 : forall a : f64, within 20 a -> within 80 a) by (intros a [? ?]; split; [assumption|eapply Rle_trans; [eassumption|apply bpow_le; lia]]).
    pose proof (W20 _ Wq1) as Vq1. pose proof (W20 _ Wq2) as Vq2. pose proof (W20 _ Wq3) as Vq3. pose proof (W20 _ Wq4) as Vq4.
    pose proof (W20 _ Wwx) as Vwx. pose proof (W20 _ Wwy) as Vwy. pose proof (W20 _ Wwz) as Vwz. clear W20.
    pose proof (ap_in x 80 Wx) as Ax. pose proof (ap_in y 80 Wy) as Ay. pose proof (ap_in z 80 Wz) as Az.
    pose proof (ap_in vx 80 Wvx) as Avx. pose proof (ap_in vy 80 Wvy) as Avy. pose proof (ap_in vz 80 Wvz) as Avz.
    pose proof (ap_in q1 20 Wq1) as Aq1. pose proof (ap_in q2 20 Wq2) as Aq2. pose proof (ap_in q3 20 Wq3) as Aq3. pose proof (ap_in q4 20 Wq4) as Aq4.
    pose proof (ap_in wx 20 Wwx) as Awx. pose proof (ap_in wy 20 Wwy) as Awy. pose proof (ap_in wz 20 Wwz) as Awz. pose proof (ap_in n 0 Wn) as An.
    pose proof (ap_in _ 20 Wi0) as Ai0. pose proof (ap_in _ 20 Wi1) as Ai1. pose proof (ap_in _ 20 Wi2) as Ai2.
    pose proof (ap_inv _ (proj1 Wi0) Hi0) as Aj0. pose proof (ap_inv _ (proj1 Wi1) Hi1) as Aj1. pose proof (ap_inv _ (proj1 Wi2) Hi2) as Aj2.
    pose proof (command f1 l1 Ff1 Wl1) as Au1. pose proof (command f2 l2 Ff2 Wl2) as Au2. pose proof (command f3 l3 Ff3 Wl3) as Au3.
    pose proof (command f4 l4 Ff4 Wl4) as Au4. pose proof (command f5 l5 Ff5 Wl5) as Au5. pose proof (command f6 l6 Ff6 Wl6) as Au6.
    cbv zeta in Au1, Au2, Au3, Au4, Au5, Au6.
    change (clipR (- B2R l1) (B2R l1) (B2R f1)) with (u f1 l1) in Au1. change (clipR (- B2R l2) (B2R l2) (B2R f2)) with (u f2 l2) in Au2.
    change (clipR (- B2R l3) (B2R l3) (B2R f3)) with (u f3 l3) in Au3. change (clipR (- B2R l4) (B2R l4) (B2R f4)) with (u f4 l4) in Au4.
    change (clipR (- B2R l5) (B2R l5) (B2R f5)) with (u f5 l5) in Au5. change (clipR (- B2R l6) (B2R l6) (B2R f6)) with (u f6 l6) in Au6.
    set (U1 := u f1 l1) in *. set (U2 := u f2 l2) in *. set (U3 := u f3 l3) in *. set (U4 := u f4 l4) in *. set (U5 := u f5 l5) in *. set (U6 := u f6 l6) in *.
    clearbody U1 U2 U3 U4 U5 U6. clear u.
    set (u1 := clip1 f1 (nmul (nZ (-1)) l1) l1) in *. set (u2 := clip1 f2 (nmul (nZ (-1)) l2) l2) in *. set (u3 := clip1 f3 (nmul (nZ (-1)) l3) l3) in *.
    set (u4 := clip1 f4 (nmul (nZ (-1)) l4) l4) in *. set (u5 := clip1 f5 (nmul (nZ (-1)) l5) l5) in *. set (u6 := clip1 f6 (nmul (nZ (-1)) l6) l6) in *.
    set (j0 := ndiv n1 (m00 I)) in *. set (j1 := ndiv n1 (m11 I)) in *. set (j2 := ndiv n1 (m22 I)) in *.
    assert (M0 : 0 <= / Rabs (B2R m)) by (left; apply Rinv_0_lt_compat; pose proof (bpow_gt_0 radix2 (-100)); lra).
    destruct (turn_rows j0 j1 j2 u1 u2 u3 u4 u5 u6 _ _ _ _ _ _ _ _ _ _ _ _ Aj0 Aj1 Aj2 Au1 Au2 Au3 Au4 Au5 Au6) as (R0 & R4 & R5 & R6).
    pose (z6 := [n0; n0; n0; n0; n0; n0] : list f64).
    (* the control matrix *)
    assert (Ctrl : exists a1 a2 a3 b1 b2 b3 c1 c2 c3 : f64,
      sixdof_g [[n0; n0; n0]; [n0; n0; n0]; [n0; n0; n0]; [im; n0; n0]; [n0; im; n0]; [n0; n0; im]] I m body (A1 [x; y; z; q1; q2; q3; q4; vx; vy; vz; wx; wy; wz]) =
        Ok ([z6; z6; z6; z6; z6; z6; z6] ++ [[a1; a2; a3; n0; n0; n0]; [b1; b2; b3; n0; n0; n0]; [c1; c2; c3; n0; n0; n0]] ++
            [[n0; n0; n0; j0; n0; n0]; [n0; n0; n0; n0; j1; n0]; [n0; n0; n0; n0; n0; j2]]) /\
      let '(tx, ty, tz) := if body then spin ((B2R q1, B2R q2, B2R q3), B2R q4) (U1, U2, U3) else (U1, U2, U3) in
      let F := (if body then (Rabs (B2R q1) + Rabs (B2R q2) + Rabs (B2R q3) + Rabs (B2R q4)) ^ 2 else 1) * (Rabs U1 + Rabs U2 + Rabs U3) / Rabs (B2R m) in
      adds (row6 a1 a2 a3 n0 n0 n0 u1 u2 u3 u4 u5 u6) (tx / B2R m) F /\
      adds (row6 b1 b2 b3 n0 n0 n0 u1 u2 u3 u4 u5 u6) (ty / B2R m) F /\
      adds (row6 c1 c2 c3 n0 n0 n0 u1 u2 u3 u4 u5 u6) (tz / B2R m) F).
    { destruct body.
      - pose proof (spin_rows im q1 q2 q3 q4 u1 u2 u3 u4 u5 u6 _ _ _ _ _ _ _ _ _ Aim M0 eq_refl WQ Au1 Au2 Au3 Au4 Au5 Au6) as P.
        destruct (spin _ _) as [[tx ty] tz]. cbv zeta in P. unfold sixdof_g. cbn [aidx nth_error bind]. rewrite Im. cbn [bind].
        destruct (apply_quat (n1, n0, n0) (q1, q2, q3, q4)) as [[aa0 aa1] aa2]. destruct (apply_quat (n0, n1, n0) (q1, q2, q3, q4)) as [[bb0 bb1] bb2].
        destruct (apply_quat (n0, n0, n1) (q1, q2, q3, q4)) as [[cc0 cc1] cc2]. cbn [fst snd] in P. cbn [bind].
        do 9 eexists. split; [reflexivity|exact P].
      - pose proof (plain_rows im u1 u2 u3 u4 u5 u6 _ _ _ _ _ _ _ _ Aim M0 Au1 Au2 Au3 Au4 Au5 Au6) as P.
        do 9 eexists. split; [|exact P]. unfold sixdof_g. cbn [aidx nth_error bind firstn skipn map app]. reflexivity. }
    destruct Ctrl as (a1 & a2 & a3 & b1 & b2 & b3 & c1 & c2 & c3 & Gg & Ctrl).
    unfold sixdof_follows. cbn [map].
    destruct (if body then spin ((B2R q1, B2R q2, B2R q3), B2R q4) (U1, U2, U3) else (U1, U2, U3)) as [[tx ty] tz].
    set (F := _ * (Rabs U1 + Rabs U2 + Rabs U3) / Rabs (B2R m)) in *. cbv zeta in Ctrl. destruct Ctrl as (R1 & R2 & R3). clearbody F.
    (* rates *)
    pose (n2 := nmul n n).
    pose (p0 := row6 n0 n0 n0 n1 n0 n0 x y z vx vy vz). pose (p1 := row6 n0 n0 n0 n0 n1 n0 x y z vx vy vz). pose (p2 := row6 n0 n0 n0 n0 n0 n1 x y z vx vy vz).
    pose (p3 := row6 (nmul (nZ 3) n2) n0 n0 n0 (nmul (nZ 2) n) n0 x y z vx vy vz). pose (p4 := row6 n0 n0 n0 (nmul (nZ (-2)) n) n0 n0 x y z vx vy vz).
    pose (p5 := row6 n0 n0 (nneg n2) n0 n0 n0 x y z vx vy vz).
    pose (half := nlit 1 2 : f64).
    pose (qd0 := nmul half (nadd (nsub (nmul q4 wx) (nmul q3 wy)) (nmul q2 wz))).
    pose (qd1 := nmul half (nsub (nadd (nmul q3 wx) (nmul q4 wy)) (nmul q1 wz))).
    pose (qd2 := nmul half (nadd (nadd (nmul (nneg q2) wx) (nmul q1 wy)) (nmul q4 wz))).
    pose (qd3 := nmul half (nsub (nsub (nmul (nneg q1) wx) (nmul q2 wy)) (nmul q3 wz))).
    pose (wd0 := nmul j0 (nmul (nmul (nsub (m11 I) (m22 I)) wy) wz)).
    pose (wd1 := nmul j1 (nmul (nmul (nsub (m22 I) (m00 I)) wx) wz)).
    pose (wd2 := nmul j2 (nmul (nmul (nsub (m00 I) (m11 I)) wx) wy)).
    pose (g0 := row6 n0 n0 n0 n0 n0 n0 u1 u2 u3 u4 u5 u6).
    pose (g1 := row6 a1 a2 a3 n0 n0 n0 u1 u2 u3 u4 u5 u6). pose (g2 := row6 b1 b2 b3 n0 n0 n0 u1 u2 u3 u4 u5 u6). pose (g3 := row6 c1 c2 c3 n0 n0 n0 u1 u2 u3 u4 u5 u6).
    pose (g4 := row6 n0 n0 n0 j0 n0 n0 u1 u2 u3 u4 u5 u6). pose (g5 := row6 n0 n0 n0 n0 j1 n0 u1 u2 u3 u4 u5 u6). pose (g6 := row6 n0 n0 n0 n0 n0 j2 u1 u2 u3 u4 u5 u6).
    pose (r (p g : f64) := nadd (f64_f32 p) g).
    assert (Raw : d_raw (e_dyn e) n0 (A1 [x; y; z; q1; q2; q3; q4; vx; vy; vz; wx; wy; wz]) (A1 [u1; u2; u3; u4; u5; u6]) =
      Ok (A1 [r p0 g0; r p1 g0; r p2 g0; r qd0 g0; r qd1 g0; r qd2 g0; r qd3 g0; r p3 g1; r p4 g2; r p5 g3; r wd0 g4; r wd1 g5; r wd2 g6])).
    { rewrite Dr. unfold affine_raw. rewrite Gg. unfold sixdof_f. cbn [matvec forallb length Nat.eqb andb map bind aidx nth_error app]. change (@nf32 f64 (F64 lm)) with f64_f32.
      unfold z6. cbn [length Nat.eqb andb bind]. unfold dot. cbn [dot_acc]. fold j0 j1 j2. fold half. fold n2.
      change (Ok (A1 [r p0 g0; r p1 g0; r p2 g0; r qd0 g0; r qd1 g0; r qd2 g0; r qd3 g0; r p3 g1; r p4 g2; r p5 g3; r wd0 g4; r wd1 g5; r wd2 g6])) with
        (bmap2 nadd (A1 [f64_f32 p0; f64_f32 p1; f64_f32 p2; f64_f32 qd0; f64_f32 qd1; f64_f32 qd2; f64_f32 qd3; f64_f32 p3; f64_f32 p4; f64_f32 p5; f64_f32 wd0; f64_f32 wd1; f64_f32 wd2])
          (A1 [g0; g0; g0; g0; g0; g0; g0; g1; g2; g3; g4; g5; g6])).
      unfold p0, p1, p2, p3, p4, p5, qd0, qd1, qd2, qd3, wd0, wd1, wd2, g0, g1, g2, g3, g4, g5, g6, row6. reflexivity. }
    assert (N2 : B2R n ^ 2 = Rabs (B2R n) * Rabs (B2R n)).
    { rewrite <- Rabs_mult. rewrite Rabs_right by (apply Rle_ge; nra). ring. }
    assert (P0 : is_finite (r p0 g0) = true /\ is_finite (nadd x (nmul h (r p0 g0))) = true /\
      follows (nadd x (nmul h (r p0 g0))) (B2R x) (B2R h) (B2R vx) (Rabs (B2R vx))).
    { unfold r. eapply step_adds; [unfold p0, row6; apx|num|num|num|exact R0|exact Wx|exact Wh|ring|apply Req_le; ring]. }
    assert (P1 : is_finite (r p1 g0) = true /\ is_finite (nadd y (nmul h (r p1 g0))) = true /\
      follows (nadd y (nmul h (r p1 g0))) (B2R y) (B2R h) (B2R vy) (Rabs (B2R vy))).
    { unfold r. eapply step_adds; [unfold p1, row6; apx|num|num|num|exact R0|exact Wy|exact Wh|ring|apply Req_le; ring]. }
    assert (P2 : is_finite (r p2 g0) = true /\ is_finite (nadd z (nmul h (r p2 g0))) = true /\
      follows (nadd z (nmul h (r p2 g0))) (B2R z) (B2R h) (B2R vz) (Rabs (B2R vz))).
    { unfold r. eapply step_adds; [unfold p2, row6; apx|num|num|num|exact R0|exact Wz|exact Wh|ring|apply Req_le; ring]. }
    assert (Q0 : is_finite (r qd0 g0) = true /\ is_finite (nadd q1 (nmul h (r qd0 g0))) = true /\
      follows (nadd q1 (nmul h (r qd0 g0))) (B2R q1) (B2R h) ((B2R q4 * B2R wx - B2R q3 * B2R wy + B2R q2 * B2R wz) / 2)
        ((Rabs (B2R q4) * Rabs (B2R wx) + Rabs (B2R q3) * Rabs (B2R wy) + Rabs (B2R q2) * Rabs (B2R wz)) / 2)).
    { unfold r. eapply step_adds; [unfold qd0, half; apx|num|num|num|exact R0|exact Vq1|exact Wh|field|apply Req_le; field]. }
    assert (Q1 : is_finite (r qd1 g0) = true /\ is_finite (nadd q2 (nmul h (r qd1 g0))) = true /\
      follows (nadd q2 (nmul h (r qd1 g0))) (B2R q2) (B2R h) ((B2R q3 * B2R wx + B2R q4 * B2R wy - B2R q1 * B2R wz) / 2)
        ((Rabs (B2R q3) * Rabs (B2R wx) + Rabs (B2R q4) * Rabs (B2R wy) + Rabs (B2R q1) * Rabs (B2R wz)) / 2)).
    { unfold r. eapply step_adds; [unfold qd1, half; apx|num|num|num|exact R0|exact Vq2|exact Wh|field|apply Req_le; field]. }
    assert (Q2 : is_finite (r qd2 g0) = true /\ is_finite (nadd q3 (nmul h (r qd2 g0))) = true /\
      follows (nadd q3 (nmul h (r qd2 g0))) (B2R q3) (B2R h) ((- B2R q2 * B2R wx + B2R q1 * B2R wy + B2R q4 * B2R wz) / 2)
        ((Rabs (B2R q2) * Rabs (B2R wx) + Rabs (B2R q1) * Rabs (B2R wy) + Rabs (B2R q4) * Rabs (B2R wz)) / 2)).
    { unfold r. eapply step_adds; [unfold qd2, half; apx|num|num|num|exact R0|exact Vq3|exact Wh|field|apply Req_le; field]. }
    assert (Q3 : is_finite (r qd3 g0) = true /\ is_finite (nadd q4 (nmul h (r qd3 g0))) = true /\
      follows (nadd q4 (nmul h (r qd3 g0))) (B2R q4) (B2R h) ((- B2R q1 * B2R wx - B2R q2 * B2R wy - B2R q3 * B2R wz) / 2)
        ((Rabs (B2R q1) * Rabs (B2R wx) + Rabs (B2R q2) * Rabs (B2R wy) + Rabs (B2R q3) * Rabs (B2R wz)) / 2)).
    { unfold r. eapply step_adds; [unfold qd3, half; apx|num|num|num|exact R0|exact Vq4|exact Wh|field|apply Req_le; field]. }
    assert (P3 : is_finite (r p3 g1) = true /\ is_finite (nadd vx (nmul h (r p3 g1))) = true /\
      follows (nadd vx (nmul h (r p3 g1))) (B2R vx) (B2R h) (3 * B2R n ^ 2 * B2R x + 2 * B2R n * B2R vy + tx / B2R m)
        (3 * B2R n ^ 2 * Rabs (B2R x) + 2 * Rabs (B2R n) * Rabs (B2R vy) + F)).
    { unfold r. eapply step_adds; [unfold p3, n2, row6; apx|num|num|num|exact R1|exact Wvx|exact Wh|ring|apply Req_le; rewrite N2; ring]. }
    assert (P4 : is_finite (r p4 g2) = true /\ is_finite (nadd vy (nmul h (r p4 g2))) = true /\
      follows (nadd vy (nmul h (r p4 g2))) (B2R vy) (B2R h) (- 2 * B2R n * B2R vx + ty / B2R m) (2 * Rabs (B2R n) * Rabs (B2R vx) + F)).
    { unfold r. eapply step_adds; [unfold p4, row6; apx|num|num|num|exact R2|exact Wvy|exact Wh|ring|apply Req_le; ring]. }
    assert (P5 : is_finite (r p5 g3) = true /\ is_finite (nadd vz (nmul h (r p5 g3))) = true /\
      follows (nadd vz (nmul h (r p5 g3))) (B2R vz) (B2R h) (- B2R n ^ 2 * B2R z + tz / B2R m) (B2R n ^ 2 * Rabs (B2R z) + F)).
    { unfold r. eapply step_adds; [unfold p5, n2, row6; apx|num|num|num|exact R3|exact Wvz|exact Wh|ring|apply Req_le; rewrite N2; ring]. }
    pose (s0 := limited_dot (nneg v0) v0 nninf npinf wx (r wd0 g4)). pose (s1 := limited_dot (nneg v1) v1 nninf npinf wy (r wd1 g5)).
    pose (s2 := limited_dot (nneg v2) v2 nninf npinf wz (r wd2 g6)).
    assert (T0 : turns (clip1 (nadd wx (nmul h s0)) (nneg v0) v0) (B2R wx) (B2R h) (B2R v0)
      (((B2R (m11 I) - B2R (m22 I)) * B2R wy * B2R wz + U4) / B2R (m00 I))
      (((Rabs (B2R (m11 I)) + Rabs (B2R (m22 I))) * Rabs (B2R wy) * Rabs (B2R wz) + Rabs U4) / Rabs (B2R (m00 I)))).
    { unfold s0, r. eapply turn_adds; [unfold wd0; apx|num|num|num|exact R4|exact Vwx|exact Wh|exact Fv0|unfold Rdiv; ring|apply Req_le; unfold Rdiv; ring]. }
    assert (T1 : turns (clip1 (nadd wy (nmul h s1)) (nneg v1) v1) (B2R wy) (B2R h) (B2R v1)
      (((B2R (m22 I) - B2R (m00 I)) * B2R wx * B2R wz + U5) / B2R (m11 I))
      (((Rabs (B2R (m22 I)) + Rabs (B2R (m00 I))) * Rabs (B2R wx) * Rabs (B2R wz) + Rabs U5) / Rabs (B2R (m11 I)))).
    { unfold s1, r. eapply turn_adds; [unfold wd1; apx|num|num|num|exact R5|exact Vwy|exact Wh|exact Fv1|unfold Rdiv; ring|apply Req_le; unfold Rdiv; ring]. }
    assert (T2 : turns (clip1 (nadd wz (nmul h s2)) (nneg v2) v2) (B2R wz) (B2R h) (B2R v2)
      (((B2R (m00 I) - B2R (m11 I)) * B2R wx * B2R wy + U6) / B2R (m22 I))
      (((Rabs (B2R (m00 I)) + Rabs (B2R (m11 I))) * Rabs (B2R wx) * Rabs (B2R wy) + Rabs U6) / Rabs (B2R (m22 I)))).
    { unfold s2, r. eapply turn_adds; [unfold wd2; apx|num|num|num|exact R6|exact Vwz|exact Wh|exact Fv2|unfold Rdiv; ring|apply Req_le; unfold Rdiv; ring]. }
    destruct P0 as (F0 & F0' & P0). destruct P1 as (F1 & F1' & P1). destruct P2 as (F2 & F2' & P2). destruct P3 as (F3 & F3' & P3).
    destruct P4 as (F4 & F4' & P4). destruct P5 as (F5 & F5' & P5). destruct Q0 as (H0 & H0' & Q0). destruct Q1 as (H1 & H1' & Q1).
    destruct Q2 as (H2 & H2' & Q2). destruct Q3 as (H3 & H3' & Q3).
    (* the step *)
    destruct (euler_list0 w e h [x; y; z; q1; q2; q3; q4; vx; vy; vz; wx; wy; wz] [f1; f2; f3; f4; f5; f6]
      [r p0 g0; r p1 g0; r p2 g0; r qd0 g0; r qd1 g0; r qd2 g0; r qd3 g0; r p3 g1; r p4 g2; r p5 g3; s0; s1; s2]) as (S1 & _ & S3).
    all: try (exact Es || exact De || reflexivity || (rewrite C1; reflexivity) || (rewrite C2; reflexivity) || (rewrite Dm; reflexivity) || (rewrite DM; reflexivity) || exact Dw).
    { rewrite Ds. exact Sa. }
    { rewrite C1, C2. cbn [map clip_list expand length]. fold u1 u2 u3 u4 u5 u6.
      erewrite csd_list with (r := [r p0 g0; r p1 g0; r p2 g0; r qd0 g0; r qd1 g0; r qd2 g0; r qd3 g0; r p3 g1; r p4 g2; r p5 g3; r wd0 g4; r wd1 g5; r wd2 g6]);
        [|reflexivity|rewrite Dm; reflexivity|rewrite DM; reflexivity|rewrite Dsm; reflexivity|rewrite DsM; reflexivity|exact Raw].
      rewrite Dm, DM, Dsm, DsM. unfold no_min, no_max. cbn [expand lim_list map length repeat]. fold s0 s1 s2.
      rewrite (stop_free lm x), (stop_free lm y), (stop_free lm z), (stop_free lm q1), (stop_free lm q2), (stop_free lm q3), (stop_free lm q4),
        (stop_free lm vx), (stop_free lm vy), (stop_free lm vz) by (assumption || apply Wx || apply Wy || apply Wz || apply Wq1 || apply Wq2 || apply Wq3 || apply Wq4 || apply Wvx || apply Wvy || apply Wvz).
      reflexivity. }
    rewrite Dm, DM in S3. cbn [expand map clip_list zipw length] in S3.
    rewrite (proj1 (fin_free lm _ F0')), (proj1 (fin_free lm _ F1')), (proj1 (fin_free lm _ F2')), (proj1 (fin_free lm _ F3')), (proj1 (fin_free lm _ F4')),
      (proj1 (fin_free lm _ F5')), (proj1 (fin_free lm _ H0')), (proj1 (fin_free lm _ H1')), (proj1 (fin_free lm _ H2')), (proj1 (fin_free lm _ H3')) in S3.
    eexists. split; [exact S1|]. split; [exact S3|].
    split; [exact (conj P0 (conj P1 P2))|]. split; [exact (conj Q0 (conj Q1 (conj Q2 Q3)))|].
    split; [exact (conj P3 (conj P4 P5))|]. exact (conj T0 (conj T1 T2)).
  Qed.

  Lemma sixdof_round_run (w : world f64) m I al vl iw aw vw thr body n samples x0 y0 z0 a0 b0 c0 d0 vx0 vy0 vz0 wx0 wy0 wz0 e0 st acts e
      i0 i1 i2 v0 v1 v2 l1 l2 l3 l4 l5 l6 h x y z q1 q2 q3 q4 vx vy vz wx wy wz (f1 f2 f3 f4 f5 f6 : f64) :
    sixdof_spacecraft m I al vl iw aw vw thr body n samples "Euler" x0 y0 z0 a0 b0 c0 d0 vx0 vy0 vz0 wx0 wy0 wz0 = Ok e0 ->
    run w (set_state e0 st) acts = Ok e -> (samples <= 0)%Z ->
    e_cmax e0 = A1 [l1; l2; l3; l4; l5; l6] ->
    d_max (e_dyn e0) = A1 [npinf; npinf; npinf; npinf; npinf; npinf; npinf; npinf; npinf; npinf; v0; v1; v2] ->
    i0 = m00 I -> i1 = m11 I -> i2 = m22 I ->
    Forall (within 60) [l1; l2; l3; l4; l5; l6] -> is_finite m = true -> bpow radix2 (-100) <= Rabs (B2R m) ->
    Forall (within 20) [i0; i1; i2] -> Forall (fun i : f64 => bpow radix2 (-20) <= Rabs (B2R i)) [i0; i1; i2] ->
    Forall (fun v : f64 => is_finite v = true) [v0; v1; v2] -> within 0 n -> within 80 h ->
    Forall (within 80) [x; y; z; vx; vy; vz] -> Forall (within 20) [q1; q2; q3; q4; wx; wy; wz] ->
    Forall (fun f : f64 => is_finite f = true) [f1; f2; f3; f4; f5; f6] ->
    e_state e = A1 [x; y; z; q1; q2; q3; q4; vx; vy; vz; wx; wy; wz] ->
    let o := entity_step w e h (AArr (A1 [f1; f2; f3; f4; f5; f6])) in
    let u (f l : f64) := clipR (- B2R l) (B2R l) (B2R f) in
    exists s', o_res o = Ok tt /\ e_state (o_entity o) = A1 s' /\
      sixdof_follows body (B2R m) (B2R i0) (B2R i1) (B2R i2) (B2R v0) (B2R v1) (B2R v2) (B2R n) (B2R h)
        (map B2R [x; y; z; q1; q2; q3; q4; vx; vy; vz; wx; wy; wz]) [u f1 l1; u f2 l2; u f3 l3; u f4 l4; u f5 l5; u f6 l6] s'.
  Proof.
    intros E Rn Sa Em Ev -> -> -> Wl Fm Hm Wi Hi Fv Wn Wh Wp Wq Fu Es o u. pose proof (run_config _ _ _ _ Rn) as (Ed & _ & E1 & E2 & _).
    destruct (sixdof_craft_inv _ _ _ _ _ _ _ _ _ _ _ _ _ _ _ _ _ _ _ _ _ _ _ _ _ _ E) as (c1 & c2 & c3 & k1 & k2 & k3 & da & dv & _ & _ & _ & _ & D & _ & C1 & _).
    pose proof (sixdof_dyn_inv _ _ _ _ _ _ _ _ _ _ D) as (_ & DM & _). rewrite Ev in DM.
    change (e_dyn (set_state e0 st)) with (e_dyn e0) in Ed. change (e_cmin (set_state e0 st)) with (e_cmin e0) in E1. change (e_cmax (set_state e0 st)) with (e_cmax e0) in E2.
    pose proof (f_equal (fun a => match a with A1 [_; _; _; _; _; _; _; _; _; _; a; _; _] => a | _ => v0 end) DM) as V0. cbv beta iota in V0.
    pose proof (f_equal (fun a => match a with A1 [_; _; _; _; _; _; _; _; _; _; _; a; _] => a | _ => v0 end) DM) as V1. cbv beta iota in V1.
    pose proof (f_equal (fun a => match a with A1 [_; _; _; _; _; _; _; _; _; _; _; _; a] => a | _ => v0 end) DM) as V2. cbv beta iota in V2.
    rewrite <- V0, <- V1, <- V2 in D.
    apply (sixdof_round w e m I v0 v1 v2 n body samples h x y z q1 q2 q3 q4 vx vy vz wx wy wz f1 f2 f3 f4 f5 f6 l1 l2 l3 l4 l5 l6); auto.
    - rewrite Ed. exact D.
    - rewrite E2. exact Em.
    - rewrite E1, E2. exact C1.
  Qed.
End F.
