(** One step of the rotating spacecraft in binary64 arithmetic. *)
From Coq Require Import String Bool Arith ZArith Lia Reals Lra List.
From Flocq Require Import Core.Core Relative IEEE754.BinarySingleNaN.
From Verif Require Import PyBase Num Arr BaseModel Cwh Rot2d XReal Float64 NumOrdLemmas ArrLemmas BaseLemmas BaseLemmas2 BaseLemmas3
  F64Wrap LimLemmas Rot2dLemmas SpecCwh SpecRound SpecFly SpecSingle F64Bound F64Err RoundCwh LinRound FlyRound Fly3Round F32.
Import List ListNotations.
Local Open Scope R_scope.

Lemma ap_loose k G D a t g : ap k G D a t g -> (k <= 64)%nat -> (D <= -700)%Z ->
  is_finite a = true /\ Rabs (B2R a - t) <= bpow radix2 (-46) * g + bpow radix2 (-700) /\ Rabs t <= g.
Proof.
  intros [F E Ht _] Hk HD. split; [exact F|]. split; [|exact Ht]. eapply Rle_trans; [exact E|].
  pose proof (eps_le k ltac:(lia)) as Q. assert (INR k <= 64) by (apply le_INR in Hk; replace (INR 64) with 64 in Hk by (simpl; lra); exact Hk).
  pose proof u64_pos. pose proof (Rabs_pos t).
  assert (eps k <= bpow radix2 (-46)).
  { eapply Rle_trans; [exact Q|]. apply (Rle_trans _ (128 * u64)); [nra|]. unfold u64.
    change (bpow radix2 (-46)) with (bpow radix2 (7 + -53)). rewrite (bpow_plus radix2 7). change (bpow radix2 7) with 128. lra. }
  apply Rplus_le_compat; [apply Rmult_le_compat_r; lra|apply bpow_le, HD].
Qed.

(** The tiny numbers as multiples of each other. *)
Lemma pows : bpow radix2 (-22) = 4 * bpow radix2 (-24) /\ bpow radix2 (-46) = 4 * (bpow radix2 (-24) * bpow radix2 (-24)) /\
  0 < bpow radix2 (-24) <= / 16000000 /\ 0 < bpow radix2 (-700) <= bpow radix2 (-150) /\
  bpow radix2 (-140) = 1024 * bpow radix2 (-150) /\ 0 < bpow radix2 (-150) <= bpow radix2 (-24).
Proof.
  split; [change (-22)%Z with (2 + -24)%Z; rewrite (bpow_plus radix2 2); cbn; lra|].
  split; [change (-46)%Z with (2 + (-24 + -24))%Z; rewrite (bpow_plus radix2 2), bpow_plus; cbn; lra|].
  split; [split; [apply bpow_gt_0|cbn; lra]|]. split; [split; [apply bpow_gt_0|apply bpow_le; lia]|].
  split; [change (-140)%Z with (10 + -150)%Z; rewrite (bpow_plus radix2 10); f_equal; cbn; lra|].
  split; [apply bpow_gt_0|apply bpow_le; lia].
Qed.

(** A rate [p] near [t], cast to binary32. *)
Lemma cast_rate (p : f64) t' g' t g : is_finite p = true -> Rabs (B2R p - t') <= bpow radix2 (-46) * g' + bpow radix2 (-700) -> Rabs t' <= g' ->
  Rabs (t' - t) <= bpow radix2 (-24) * g + 5 * bpow radix2 (-150) -> g' <= 3 / 2 * g + 5 * bpow radix2 (-150) -> Rabs t <= g -> 0 <= g <= bpow radix2 100 ->
  is_finite (f64_f32 p) = true /\ Rabs (B2R (f64_f32 p) - t) <= 3 * bpow radix2 (-24) * g + 20 * bpow radix2 (-150) /\
  Rabs (B2R (f64_f32 p)) <= 2 * g + 25 * bpow radix2 (-150).
Proof.
  intros Fp Ep Ht' Et Hg' Ht Hg. destruct pows as (P1 & P2 & P3 & P4 & P5 & P6).
  set (u := bpow radix2 (-24)) in *. set (w := bpow radix2 (-150)) in *. set (v := bpow radix2 (-700)) in *.
  pose proof (Rabs_pos t') as G0.
  assert (S1 : 4 * (u * u) * g' <= u / 1000 * g').
  { apply Rmult_le_compat_r; [lra|]. replace (4 * (u * u)) with (u * (4 * u)) by ring. unfold Rdiv. apply Rmult_le_compat_l; lra. }
  assert (S2 : u / 1000 * g' <= / 1000 * (u * (3 / 2 * g)) + w).
  { apply (Rle_trans _ (u / 1000 * (3 / 2 * g + 5 * w))); [apply Rmult_le_compat_l; lra|].
    assert (u * w <= 1 * w) by (apply Rmult_le_compat_r; lra). lra. }
  assert (UG : 0 <= u * g <= / 16000000 * g) by (split; [apply Rmult_le_pos; lra|apply Rmult_le_compat_r; lra]).
  assert (Pb : Rabs (B2R p) <= 8 / 5 * g + 8 * w).
  { replace (B2R p) with (t' + (B2R p - t')) by ring. eapply Rle_trans; [apply Rabs_triang|]. rewrite P2 in Ep. lra. }
  assert (W100 : 8 * w <= / 10 * bpow radix2 100).
  { assert (w <= 1) by (unfold w; change 1 with (bpow radix2 0); apply bpow_le; lia). assert (bpow radix2 7 <= bpow radix2 100) by (apply bpow_le; lia).
    change (bpow radix2 7) with 128 in *. lra. }
  destruct (f32_err p Fp) as [Fq Eq].
  { change 101%Z with (1 + 100)%Z. rewrite (bpow_plus radix2 1). change (bpow radix2 1) with 2. lra. }
  fold u w in Eq. split; [exact Fq|].
  assert (Uq : u * Rabs (B2R p) <= 8 / 5 * (u * g) + w).
  { apply (Rle_trans _ (u * (8 / 5 * g + 8 * w))); [apply Rmult_le_compat_l; lra|].
    assert (u * w <= / 16000000 * w) by (apply Rmult_le_compat_r; lra). lra. }
  assert (E : Rabs (B2R (f64_f32 p) - t) <= 3 * u * g + 20 * w).
  { replace (B2R (f64_f32 p) - t) with ((B2R (f64_f32 p) - B2R p) + ((B2R p - t') + (t' - t))) by ring.
    eapply Rle_trans; [apply Rabs_triang|]. pose proof (Rabs_triang (B2R p - t') (t' - t)). rewrite P2 in Ep. lra. }
  split; [exact E|]. replace (B2R (f64_f32 p)) with (t + (B2R (f64_f32 p) - t)) by ring. eapply Rle_trans; [apply Rabs_triang|]. lra.
Qed.

(** The step with this rate and further terms [tG] computed in binary64. *)
Lemma follow_rate (p a : f64) t' g' t g x h tG gG T Gt : is_finite p = true -> Rabs (B2R p - t') <= bpow radix2 (-46) * g' + bpow radix2 (-700) -> Rabs t' <= g' ->
  Rabs (t' - t) <= bpow radix2 (-24) * g + 5 * bpow radix2 (-150) -> g' <= 3 / 2 * g + 5 * bpow radix2 (-150) -> Rabs t <= g -> g <= bpow radix2 100 ->
  0 <= gG ->
  is_finite a = true -> Rabs (B2R a - (x + h * (B2R (f64_f32 p) + tG))) <= bpow radix2 (-46) * (Rabs x + Rabs h * (Rabs (B2R (f64_f32 p)) + gG)) + bpow radix2 (-700) ->
  T = t + tG -> g + gG <= Gt ->
  follows a x h T Gt.
Proof.
  intros Fp Ep Ht' Et Hg' Ht Hg HG Fa Ea -> HT. pose proof (Rabs_pos t) as G0.
  destruct (cast_rate p t' g' t g Fp Ep Ht' Et Hg' Ht (conj (Rle_trans _ _ _ G0 Ht) Hg)) as (_ & Eq & Bq).
  split; [exact Fa|]. unfold single_error. destruct pows as (P1 & P2 & P3 & P4 & P5 & P6). rewrite P1, P5.
  replace (B2R a - (x + h * (t + tG))) with ((B2R a - (x + h * (B2R (f64_f32 p) + tG))) + h * (B2R (f64_f32 p) - t)) by ring.
  eapply Rle_trans; [apply Rabs_triang|]. rewrite Rabs_mult.
  set (q := B2R (f64_f32 p)) in *. set (u := bpow radix2 (-24)) in *. set (w := bpow radix2 (-150)) in *. set (v := bpow radix2 (-700)) in *.
  pose proof (Rabs_pos h) as H0. set (H := Rabs h) in *.
  assert (A1 : H * Rabs (q - t) <= H * (3 * u * g + 20 * w)) by (apply Rmult_le_compat_l; [exact H0|exact Eq]).
  assert (A2 : bpow radix2 (-46) * (Rabs x + H * (Rabs q + gG)) <= bpow radix2 (-46) * Rabs x + H * (/ 2 * u * (g + gG) + w)).
  { rewrite Rmult_plus_distr_l. apply Rplus_le_compat_l. rewrite P2.
    replace (4 * (u * u) * (H * (Rabs q + gG))) with (H * (u * (4 * u * (Rabs q + gG)))) by ring. apply Rmult_le_compat_l; [exact H0|].
    assert (4 * u * (Rabs q + gG) <= / 4 * (Rabs q + gG)) by (apply Rmult_le_compat_r; [pose proof (Rabs_pos q); lra|lra]).
    assert (4 * u * (Rabs q + gG) <= / 2 * (g + gG) + 10 * w) by lra.
    apply (Rle_trans _ (u * (/ 2 * (g + gG) + 10 * w))); [apply Rmult_le_compat_l; lra|].
    assert (u * w <= / 16000000 * w) by (apply Rmult_le_compat_r; lra). lra. }
  assert (U0 : 0 <= u * g) by (apply Rmult_le_pos; lra). assert (U1 : 0 <= u * gG) by (apply Rmult_le_pos; lra).
  assert (A3 : H * (3 * u * g + 20 * w) + H * (/ 2 * u * (g + gG) + w) <= H * (4 * u * Gt + 1024 * w)).
  { rewrite <- Rmult_plus_distr_l. apply Rmult_le_compat_l; [exact H0|].
    assert (u * (g + gG) <= u * Gt) by (apply Rmult_le_compat_l; lra). lra. }
  lra.
Qed.

(** Casting a state variable. *)
Lemma cast_in (x : f64) : within 90 x -> is_finite (f64_f32 x) = true /\
  Rabs (B2R (f64_f32 x) - B2R x) <= bpow radix2 (-24) * Rabs (B2R x) + bpow radix2 (-150) /\ Rabs (B2R (f64_f32 x)) <= 3 / 2 * Rabs (B2R x) + bpow radix2 (-150) /\
  within 92 (f64_f32 x).
Proof.
  intros [F B]. assert (L : Rabs (B2R x) <= bpow radix2 101) by (eapply Rle_trans; [exact B|apply bpow_le; lia]).
  destruct (f32_err x F L) as [Fq Eq]. destruct pows as (_ & _ & P3 & _ & _ & P6).
  set (u := bpow radix2 (-24)) in *. set (w := bpow radix2 (-150)) in *.
  assert (U : u * Rabs (B2R x) <= / 16000000 * Rabs (B2R x)) by (apply Rmult_le_compat_r; [apply Rabs_pos|lra]).
  assert (S : Rabs (B2R (f64_f32 x)) <= 3 / 2 * Rabs (B2R x) + w).
  { replace (B2R (f64_f32 x)) with (B2R x + (B2R (f64_f32 x) - B2R x)) by ring. eapply Rle_trans; [apply Rabs_triang|]. pose proof (Rabs_pos (B2R x)). lra. }
  split; [exact Fq|]. split; [exact Eq|]. split; [exact S|]. split; [exact Fq|].
  change 92%Z with (2 + 90)%Z. rewrite (bpow_plus radix2 2). change (bpow radix2 2) with 4.
  assert (1 <= bpow radix2 90) by (change 1 with (bpow radix2 0); apply bpow_le; lia). lra.
Qed.

Lemma clip_sym v a : 0 <= v -> Rabs (clipR (- v) v a) <= Rabs a.
Proof. intros H. unfold clipR, Rmin, Rmax. repeat destruct (Rle_dec _ _); unfold Rabs; repeat destruct (Rcase_abs _); lra. Qed.

(** Two terms of a rate in cast variables. *)
Lemma cast_terms (x y : f64) a b : within 90 x -> within 90 y -> 0 <= Rabs a <= 3 -> 0 <= Rabs b <= 2 ->
  let X := f64_f32 x in let Y := f64_f32 y in
  let g := Rabs a * Rabs (B2R x) + Rabs b * Rabs (B2R y) in
  Rabs ((a * B2R X + b * B2R Y) - (a * B2R x + b * B2R y)) <= bpow radix2 (-24) * g + 5 * bpow radix2 (-150) /\
  Rabs a * Rabs (B2R X) + Rabs b * Rabs (B2R Y) <= 3 / 2 * g + 5 * bpow radix2 (-150) /\
  Rabs (a * B2R x + b * B2R y) <= g /\ g <= bpow radix2 100.
Proof.
  intros Wx Wy Ha Hb X Y g. destruct (cast_in x Wx) as (_ & Ex & Bx & _). destruct (cast_in y Wy) as (_ & Ey & By & _). fold X in Ex, Bx. fold Y in Ey, By.
  pose proof (bpow_gt_0 radix2 (-150)) as W0. set (w := bpow radix2 (-150)) in *. set (u := bpow radix2 (-24)) in *.
  assert (T : forall c v k, 0 <= Rabs c <= k -> Rabs c * v <= Rabs c * v) by (intros; lra).
  assert (Q1 : Rabs a * Rabs (B2R X - B2R x) <= Rabs a * (u * Rabs (B2R x) + w)) by (apply Rmult_le_compat_l; lra).
  assert (Q2 : Rabs b * Rabs (B2R Y - B2R y) <= Rabs b * (u * Rabs (B2R y) + w)) by (apply Rmult_le_compat_l; lra).
  assert (Q3 : Rabs a * Rabs (B2R X) <= Rabs a * (3 / 2 * Rabs (B2R x) + w)) by (apply Rmult_le_compat_l; lra).
  assert (Q4 : Rabs b * Rabs (B2R Y) <= Rabs b * (3 / 2 * Rabs (B2R y) + w)) by (apply Rmult_le_compat_l; lra).
  assert (Q5 : Rabs a * w <= 3 * w) by (apply Rmult_le_compat_r; lra). assert (Q6 : Rabs b * w <= 2 * w) by (apply Rmult_le_compat_r; lra).
  split; [|split; [|split]].
  - replace ((a * B2R X + b * B2R Y) - (a * B2R x + b * B2R y)) with (a * (B2R X - B2R x) + b * (B2R Y - B2R y)) by ring.
    eapply Rle_trans; [apply Rabs_triang|]. rewrite !Rabs_mult. unfold g. lra.
  - unfold g. lra.
  - eapply Rle_trans; [apply Rabs_triang|]. rewrite !Rabs_mult. unfold g. lra.
  - destruct Wx as [_ Wx], Wy as [_ Wy]. unfold g.
    assert (Rabs a * Rabs (B2R x) <= 3 * bpow radix2 90) by (apply Rmult_le_compat; try lra; apply Rabs_pos).
    assert (Rabs b * Rabs (B2R y) <= 2 * bpow radix2 90) by (apply Rmult_le_compat; try lra; apply Rabs_pos).
    change 100%Z with (10 + 90)%Z. rewrite (bpow_plus radix2 10). change (bpow radix2 10) with 1024. pose proof (bpow_gt_0 radix2 90). lra.
Qed.

Section F.
  Variable lm : libm.
  Local Hint Extern 0 (Num f64) => exact (F64 lm) : typeclass_instances.

  Definition ndiv_ap := fun k G D (a b : f64) t g H1 H2 H3 => (fun A F B => ap_div k G D a b t g H1 H2 H3 A F B : ap _ _ _ (ndiv a b) _ _).

  Ltac apx := lazymatch goal with
    | |- ap _ _ _ (nadd _ _) _ _ => eapply nadd_ap; [apx|apx|reflexivity]
    | |- ap _ _ _ (nmul _ _) _ _ => eapply nmul_ap; [apx|apx|reflexivity]
    | |- ap _ _ _ (nneg _) _ _ => eapply nneg_ap; apx
    | |- ap _ _ _ n0 _ _ => apply ap0
    | |- ap _ _ _ n1 _ _ => apply ap1
    | |- ap _ _ _ (nZ 2) _ _ => apply ap2
    | |- ap _ _ _ (nZ 3) _ _ => apply ap3
    | |- ap _ _ _ (nZ (-2)) _ _ => apply apm2
    | |- ap _ _ _ (limited_dot _ _ nninf npinf _ _) _ _ => eapply stop64; [eassumption|eassumption|eassumption|apx]
    | |- _ => eassumption
    end.

  Ltac simp H := repeat (rewrite Rmult_0_l in H || rewrite Rplus_0_r in H || rewrite Rmult_1_l in H).

  Definition row3 (a b c u1 u2 u3 : f64) : f64 := nadd (nadd (nadd n0 (nmul a u1)) (nmul b u2)) (nmul c u3).
  Definition row4 (a b c d x y z t : f64) : f64 := nadd (nadd (nadd (nadd n0 (nmul a x)) (nmul b y)) (nmul c z)) (nmul d t).

  Lemma ap_clip k G D (r lo hi : f64) v t g : ap k G D r t g -> is_finite lo = true -> is_finite hi = true ->
    B2R lo = - v -> B2R hi = v -> 0 <= v -> ap k G D (clip1 r lo hi) (clipR (- v) v t) g.
  Proof.
    intros A Fl Fh El Eh Hv. destruct (clip64 lm r lo hi (ap_fin _ _ _ _ _ _ A) Fl Fh) as [F E]. rewrite El, Eh in E.
    eapply ap_near; [exact A|exact F| |apply clip_sym, Hv]. rewrite E. apply clipR_near.
  Qed.

  Lemma limited_clip (lo hi a b s r : f64) : is_finite (clip1 r a b) = true ->
    limited_dot lo hi a b s r = limited_dot lo hi nninf npinf s (clip1 r a b).
  Proof. intros F. unfold limited_dot. destruct (fin_free lm _ F) as (-> & _). reflexivity. Qed.

  Lemma ap_eq k G D (a : f64) t g t' g' : ap k G D a t g -> t = t' -> g = g' -> ap k G D a t' g'.
  Proof. intros A <- <-. exact A. Qed.

  Lemma mul_opp (a b : f64) : within 40 a -> within 40 b -> is_finite (nmul (nneg a) b) = true /\ B2R (nmul (nneg a) b) = - B2R (nmul a b).
  Proof.
    intros [Fa Ba] [Fb Bb]. change (nmul (nneg a) b) with (Bmult mode_NE (Bopp a) b). change (nmul a b) with (Bmult mode_NE a b).
    pose proof (Bmult_correct 53 1024 _ _ mode_NE (Bopp a) b) as Q. pose proof (Bmult_correct 53 1024 _ _ mode_NE a b) as P.
    assert (S : Rabs (B2R a * B2R b) <= bpow radix2 80).
    { rewrite Rabs_mult. change 80%Z with (40 + 40)%Z. rewrite bpow_plus. apply Rmult_le_compat; auto; apply Rabs_pos. }
    rewrite Rlt_bool_true in P by (eapply Rle_lt_trans; [apply (rnd_bounded 80); [lia|exact S]|apply bpow_lt_emax; lia]).
    rewrite B2R_Bopp in Q. replace (- B2R a * B2R b) with (- (B2R a * B2R b)) in Q by ring.
    rewrite Rlt_bool_true in Q by (eapply Rle_lt_trans; [apply (rnd_bounded 80); [lia|rewrite Rabs_Ropp; exact S]|apply bpow_lt_emax; lia]).
    destruct Q as (Q1 & Q2 & _). destruct P as (P1 & _). split; [rewrite Q2, is_finite_Bopp, Fa, Fb; reflexivity|].
    rewrite Q1, P1. apply round_NE_opp.
  Qed.

  Lemma rot2d_round (w : world f64) (e : entity f64) m inertia acc vel n samples jax h x y th vx vy wz (fx fy mz : f64) :
    accurate lm -> rot2d_dyn w m inertia acc vel n samples "Euler" jax = Ok (e_dyn e) -> (samples <= 0)%Z ->
    e_cmin e = A1 [nZ (-1); nZ (-1); nmul (nneg acc) inertia] -> e_cmax e = A1 [n1; n1; nmul acc inertia] ->
    is_finite m = true -> bpow radix2 (-100) <= Rabs (B2R m) -> within 40 inertia -> bpow radix2 (-100) <= Rabs (B2R inertia) ->
    within 40 acc -> within 40 vel -> 0 <= B2R acc -> 0 <= B2R vel -> within 0 n -> within 90 h ->
    Forall (within 90) [x; y; th; vx; vy; wz] -> Forall (fun f : f64 => is_finite f = true) [fx; fy; mz] ->
    e_state e = A1 [x; y; th; vx; vy; wz] ->
    let o := entity_step w e h (AArr (A1 [fx; fy; mz])) in
    let M := B2R (nmul acc inertia) in
    exists s', o_res o = Ok tt /\ e_state (o_entity o) = A1 s' /\
      rot2d_follows (B2R m) (B2R inertia) (B2R acc) (B2R vel) (B2R n) (B2R h) (map B2R [x; y; th; vx; vy; wz])
        [clipR (-1) 1 (B2R fx); clipR (-1) 1 (B2R fy); clipR (- M) M (B2R mz)] s' /\
      nth 0 s' n0 = nadd x (nmul h (nadd (f64_f32 (row4 n0 n0 n1 n0 (f64_f32 x) (f64_f32 y) (f64_f32 vx) (f64_f32 vy)))
        (row3 n0 n0 n0 (clip1 fx (nZ (-1)) n1) (clip1 fy (nZ (-1)) n1) (clip1 mz (nmul (nneg acc) inertia) (nmul acc inertia))))) /\
      Rabs (B2R (nth 2 s' n0)) <= 4.
  Proof.
    intros Ac Ed Sa C1 C2 Fm Hm Wi Hi Wa Wv A0 V0 Wn Wh Ws Fu Es o M.
    apply Forall_cons_iff in Ws as [Wx Ws]. apply Forall_cons_iff in Ws as [Wy Ws]. apply Forall_cons_iff in Ws as [Wth Ws].
    apply Forall_cons_iff in Ws as [Wvx Ws]. apply Forall_cons_iff in Ws as [Wvy Ws]. apply Forall_cons_iff in Ws as [Wwz _].
    apply Forall_cons_iff in Fu as [Ffx Fu]. apply Forall_cons_iff in Fu as [Ffy Fu]. apply Forall_cons_iff in Fu as [Fmz _].
    destruct (rot2d_dyn_inv _ _ _ _ _ _ _ _ _ _ Ed) as (Dm & DM & Dsm & DsM & Dw & Ds & De & _ & A & B & Gm & Dr).
    destruct (inv64 lm m Fm Hm) as (im & Im & Aim). destruct (inv64 lm inertia (proj1 Wi) Hi) as (iz & Iz & Aiz).
    unfold generate_cwh_matrices in Gm. rewrite Im in Gm. cbn [bind py_assert String.eqb Ascii.eqb Bool.eqb orb] in Gm.
    pose proof (f_equal (fun r => match r with Ok p => fst p | Err _ => A end) Gm) as GA. cbn [fst] in GA. clear Gm. subst A.
    destruct (cast_in x Wx) as (FX & _ & _ & WX). destruct (cast_in y Wy) as (FY & _ & _ & WY).
    destruct (cast_in vx Wvx) as (FVX & _ & _ & WVX). destruct (cast_in vy Wvy) as (FVY & _ & _ & WVY).
    destruct (cast_in wz Wwz) as (FWZ & EWZ & BWZ & WWZ).
    set (X := f64_f32 x) in *. set (Y := f64_f32 y) in *. set (VX := f64_f32 vx) in *. set (VY := f64_f32 vy) in *. set (WZ := f64_f32 wz) in *.
    pose proof (ap_in X 92 WX) as AX. pose proof (ap_in Y 92 WY) as AY. pose proof (ap_in VX 92 WVX) as AVX. pose proof (ap_in VY 92 WVY) as AVY.
    pose proof (ap_in WZ 92 WWZ) as AWZ. pose proof (ap_in n 0 Wn) as An. pose proof (ap_in h 90 Wh) as Ah.
    pose proof (ap_in x 90 Wx) as Ax. pose proof (ap_in y 90 Wy) as Ay. pose proof (ap_in th 90 Wth) as Ath.
    pose proof (ap_in vx 90 Wvx) as Avx. pose proof (ap_in vy 90 Wvy) as Avy. pose proof (ap_in wz 90 Wwz) as Awz.
    pose proof (ap_in acc 40 Wa) as Aacc. pose proof (ap_in inertia 40 Wi) as Ain.
    destruct (Ac th (proj1 Wth)) as [[Fc Ec] [Fs Es']].
    pose proof (ap_trig (ncos th) _ Fc Ec ltac:(apply Rabs_le; apply COS_bound)) as Acos.
    pose proof (ap_trig (nsin th) _ Fs Es' ltac:(apply Rabs_le; apply SIN_bound)) as Asin.
    assert (K3 : (2 <= 100)%nat) by lia. assert (G3 : (0 <= 0 <= 300)%Z) by lia. assert (D3 : (-1075 <= -1075 <= -200)%Z) by lia.
    pose proof (ndiv_ap _ _ _ _ m _ _ K3 G3 D3 Acos Fm Hm) as Acm. pose proof (ndiv_ap _ _ _ _ m _ _ K3 G3 D3 Asin Fm Hm) as Asm.
    pose proof (ndiv_ap _ _ _ _ m _ _ K3 G3 D3 (nneg_ap lm _ _ _ _ _ _ Asin) Fm Hm) as Asm'.
    (* control *)
    assert (Cl : forall f : f64, is_finite f = true -> ap 0 2 (-1075) (clip1 f (nZ (-1)) n1) (clipR (-1) 1 (B2R f)) (Rabs (clipR (-1) 1 (B2R f)))).
    { intros f Ff. destruct (mone64 lm) as [M1 M2], (one64 lm) as [O1 O2]. destruct (clip64 lm f (nZ (-1)) n1 Ff M1 O1) as [Q1 Q2].
      rewrite M2, O2 in Q2. rewrite <- Q2. apply ap_in. split; [exact Q1|]. rewrite Q2. change (bpow radix2 2) with 4.
      unfold clipR, Rmin, Rmax. repeat destruct (Rle_dec _ _); apply Rabs_le; lra. }
    pose proof (Cl fx Ffx) as Au1. pose proof (Cl fy Ffy) as Au2. clear Cl.
    assert (WM : within 90 (nmul acc inertia)).
    { assert (Q : exists k G D t g, ap k G D (nmul acc inertia) t g /\ (k <= 100)%nat /\ (D <= G)%Z /\ (G + 2 <= 90)%Z).
      { do 5 eexists. split; [apx|]. cbn. lia. }
      destruct Q as (k & G & D & t & g & Q & Q1 & Q2 & Q3). destruct (ap_size k G D _ _ _ ltac:(lia) Q2 Q) as [Q4 Q5].
      split; [exact Q4|]. eapply Rle_trans; [exact Q5|apply bpow_le, Q3]. }
    destruct (mul_opp acc inertia Wa Wi) as [FM' EM']. fold M in EM'.
    assert (Wu3 : within 90 (clip1 mz (nmul (nneg acc) inertia) (nmul acc inertia)) /\
      B2R (clip1 mz (nmul (nneg acc) inertia) (nmul acc inertia)) = clipR (- M) M (B2R mz)).
    { destruct (clip64 lm mz _ _ Fmz FM' (proj1 WM)) as [Q1 Q2]. rewrite EM' in Q2. fold M in Q2. split; [|exact Q2]. split; [exact Q1|]. rewrite Q2.
      destruct WM as [_ WM]. fold M in WM. apply Rabs_le_inv in WM. apply Rabs_le. unfold clipR, Rmin, Rmax. repeat destruct (Rle_dec _ _); lra. }
    destruct Wu3 as [Wu3 Eu3]. pose proof (ap_in _ 90 Wu3) as Au3. rewrite Eu3 in Au3.
    set (u1 := clip1 fx (nZ (-1)) n1) in *. set (u2 := clip1 fy (nZ (-1)) n1) in *. set (u3 := clip1 mz (nmul (nneg acc) inertia) (nmul acc inertia)) in *.
    set (U1 := clipR (-1) 1 (B2R fx)) in *. set (U2 := clipR (-1) 1 (B2R fy)) in *. set (U3 := clipR (- M) M (B2R mz)) in *.
    assert (Fnv : is_finite (nneg vel) = true) by (change (nneg vel) with (Bopp vel); rewrite is_finite_Bopp; apply Wv).
    assert (Env : B2R (nneg vel) = - B2R vel) by (change (nneg vel) with (Bopp vel); apply B2R_Bopp).
    assert (Fna : is_finite (nneg acc) = true) by (change (nneg acc) with (Bopp acc); rewrite is_finite_Bopp; apply Wa).
    assert (Ena : B2R (nneg acc) = - B2R acc) by (change (nneg acc) with (Bopp acc); apply B2R_Bopp).
    assert (Fv : is_finite vel = true) by apply Wv. assert (Fa : is_finite acc = true) by apply Wa. assert (Fwz : is_finite wz = true) by apply Wwz.
    (* rates *)
    pose (n2 := nmul n n).
    pose (p0 := row4 n0 n0 n1 n0 X Y VX VY). pose (p1 := row4 n0 n0 n0 n1 X Y VX VY).
    pose (p2 := row4 (nmul (nZ 3) n2) n0 n0 (nmul (nZ 2) n) X Y VX VY). pose (p3 := row4 n0 n0 (nmul (nZ (-2)) n) n0 X Y VX VY).
    assert (N2 : B2R n ^ 2 = Rabs (B2R n) * Rabs (B2R n)).
    { rewrite <- Rabs_mult. rewrite Rabs_right by (apply Rle_ge; nra). ring. }
    destruct Wn as [Fn Bn]. change (bpow radix2 0) with 1 in Bn. pose proof (Rabs_pos (B2R n)) as Bn0.
    assert (N21 : 0 <= B2R n ^ 2 <= 1) by (rewrite N2; split; [nra|apply (Rle_trans _ (1 * 1)); [apply Rmult_le_compat; lra|lra]]).
    assert (P0 : is_finite p0 = true /\ Rabs (B2R p0 - B2R VX) <= bpow radix2 (-46) * Rabs (B2R VX) + bpow radix2 (-700) /\ Rabs (B2R VX) <= Rabs (B2R VX)).
    { assert (Q : exists k G D t g, ap k G D p0 t g /\ (k <= 64)%nat /\ (D <= -700)%Z /\ t = B2R VX /\ g = Rabs (B2R VX)).
      { unfold p0, row4. do 5 eexists. split; [apx|]. split; [cbn; lia|]. split; [cbn; lia|]. split; ring. }
      destruct Q as (k & G & D & t & g & Q & Q1 & Q2 & -> & ->). exact (ap_loose _ _ _ _ _ _ Q Q1 Q2). }
    assert (P1 : is_finite p1 = true /\ Rabs (B2R p1 - B2R VY) <= bpow radix2 (-46) * Rabs (B2R VY) + bpow radix2 (-700) /\ Rabs (B2R VY) <= Rabs (B2R VY)).
    { assert (Q : exists k G D t g, ap k G D p1 t g /\ (k <= 64)%nat /\ (D <= -700)%Z /\ t = B2R VY /\ g = Rabs (B2R VY)).
      { unfold p1, row4. do 5 eexists. split; [apx|]. split; [cbn; lia|]. split; [cbn; lia|]. split; ring. }
      destruct Q as (k & G & D & t & g & Q & Q1 & Q2 & -> & ->). exact (ap_loose _ _ _ _ _ _ Q Q1 Q2). }
    assert (P2 : let t := 3 * B2R n ^ 2 * B2R X + 2 * B2R n * B2R VY in let g := 3 * B2R n ^ 2 * Rabs (B2R X) + 2 * Rabs (B2R n) * Rabs (B2R VY) in
      is_finite p2 = true /\ Rabs (B2R p2 - t) <= bpow radix2 (-46) * g + bpow radix2 (-700) /\ Rabs t <= g).
    { cbv zeta. assert (Q : exists k G D t g, ap k G D p2 t g /\ (k <= 64)%nat /\ (D <= -700)%Z /\ t = 3 * B2R n ^ 2 * B2R X + 2 * B2R n * B2R VY /\ g = 3 * B2R n ^ 2 * Rabs (B2R X) + 2 * Rabs (B2R n) * Rabs (B2R VY)).
      { unfold p2, row4, n2. do 5 eexists. split; [apx|]. split; [cbn; lia|]. split; [cbn; lia|]. split; [ring|rewrite N2; ring]. }
      destruct Q as (k & G & D & t & g & Q & Q1 & Q2 & -> & ->). exact (ap_loose _ _ _ _ _ _ Q Q1 Q2). }
    assert (P3 : let t := -2 * B2R n * B2R VX in let g := 2 * Rabs (B2R n) * Rabs (B2R VX) in
      is_finite p3 = true /\ Rabs (B2R p3 - t) <= bpow radix2 (-46) * g + bpow radix2 (-700) /\ Rabs t <= g).
    { cbv zeta. assert (Q : exists k G D t g, ap k G D p3 t g /\ (k <= 64)%nat /\ (D <= -700)%Z /\ t = -2 * B2R n * B2R VX /\ g = 2 * Rabs (B2R n) * Rabs (B2R VX)).
      { unfold p3, row4. do 5 eexists. split; [apx|]. split; [cbn; lia|]. split; [cbn; lia|]. split; ring. }
      destruct Q as (k & G & D & t & g & Q & Q1 & Q2 & -> & ->). exact (ap_loose _ _ _ _ _ _ Q Q1 Q2). }
    destruct P0 as (FP0 & EP0 & TP0). destruct P1 as (FP1 & EP1 & TP1). destruct P2 as (FP2 & EP2 & TP2). destruct P3 as (FP3 & EP3 & TP3).
    (* rates against the uncast state *)
    assert (R0 : Rabs 0 <= 2) by (rewrite Rabs_R0; lra). assert (R00 : 0 <= Rabs 0) by apply Rabs_pos.
    destruct (cast_terms vx x 1 0 Wvx Wx ltac:(rewrite Rabs_R1; lra) (conj R00 R0)) as (T0a & T0b & T0c & T0d).
    destruct (cast_terms vy x 1 0 Wvy Wx ltac:(rewrite Rabs_R1; lra) (conj R00 R0)) as (T1a & T1b & T1c & T1d).
    assert (H3 : Rabs (3 * B2R n ^ 2) = 3 * B2R n ^ 2) by (apply Rabs_right; lra).
    assert (H2 : Rabs (2 * B2R n) = 2 * Rabs (B2R n)) by (rewrite Rabs_mult, (Rabs_right 2) by lra; reflexivity).
    assert (Hm2 : Rabs (-2 * B2R n) = 2 * Rabs (B2R n)) by (rewrite Rabs_mult, (Rabs_left (-2)) by lra; ring).
    destruct (cast_terms x vy (3 * B2R n ^ 2) (2 * B2R n) Wx Wvy ltac:(rewrite H3; lra) ltac:(rewrite H2; lra)) as (T2a & T2b & T2c & T2d).
    destruct (cast_terms vx x (-2 * B2R n) 0 Wvx Wx ltac:(rewrite Hm2; lra) (conj R00 R0)) as (T3a & T3b & T3c & T3d).
    rewrite Rabs_R1, Rabs_R0 in T0a, T0b, T0c, T0d, T1a, T1b, T1c, T1d. rewrite H3, H2 in T2a, T2b, T2c, T2d. rewrite Hm2, Rabs_R0 in T3a, T3b, T3c, T3d.
    fold X Y VX VY in T0a, T0b, T1a, T1b, T2a, T2b, T3a, T3b.
    simp T0a. simp T0b. simp T0c. simp T0d. simp T1a. simp T1b. simp T1c. simp T1d. simp T3a. simp T3b. simp T3c. simp T3d.
    assert (Wc : forall p t' g' t g, is_finite p = true -> Rabs (B2R p - t') <= bpow radix2 (-46) * g' + bpow radix2 (-700) -> Rabs t' <= g' ->
      Rabs (t' - t) <= bpow radix2 (-24) * g + 5 * bpow radix2 (-150) -> g' <= 3 / 2 * g + 5 * bpow radix2 (-150) -> Rabs t <= g -> g <= bpow radix2 100 ->
      within 103 (f64_f32 p)).
    { intros p t' g' t g Z1 Z2 Z3 Z4 Z5 Z6 Z7. pose proof (Rabs_pos t).
      destruct (cast_rate p t' g' t g Z1 Z2 Z3 Z4 Z5 Z6 ltac:(lra)) as (Y1 & _ & Y2). split; [exact Y1|].
      change 103%Z with (3 + 100)%Z. rewrite (bpow_plus radix2 3). change (bpow radix2 3) with 8.
      assert (1 <= bpow radix2 100) by (change 1 with (bpow radix2 0); apply bpow_le; lia).
      destruct pows as (_ & _ & Y3 & _ & _ & Y6). lra. }
    pose proof (Wc _ _ _ _ _ FP0 EP0 TP0 T0a T0b T0c T0d) as W0. pose proof (Wc _ _ _ _ _ FP1 EP1 TP1 T1a T1b T1c T1d) as W1.
    pose proof (Wc _ _ _ _ _ FP2 EP2 TP2 T2a T2b T2c T2d) as W2. pose proof (Wc _ _ _ _ _ FP3 EP3 TP3 T3a T3b T3c T3d) as W3. clear Wc.
    pose proof (ap_in _ 103 W0) as A0'. pose proof (ap_in _ 103 W1) as A1'. pose proof (ap_in _ 103 W2) as A2'. pose proof (ap_in _ 103 W3) as A3'.
    pose (r0 := nadd (f64_f32 p0) (row3 n0 n0 n0 u1 u2 u3)). pose (r1 := nadd (f64_f32 p1) (row3 n0 n0 n0 u1 u2 u3)).
    pose (rt := nadd WZ (row3 n0 n0 n0 u1 u2 u3)).
    pose (r2 := nadd (f64_f32 p2) (row3 (ndiv (ncos th) m) (ndiv (nneg (nsin th)) m) n0 u1 u2 u3)).
    pose (r3 := nadd (f64_f32 p3) (row3 (ndiv (nsin th) m) (ndiv (ncos th) m) n0 u1 u2 u3)).
    pose (rw := nadd n0 (row3 n0 n0 iz u1 u2 u3)).
    pose (ct := clip1 rt (nneg vel) vel). pose (cw := clip1 rw (nneg acc) acc). pose (sw := limited_dot (nneg vel) vel nninf npinf wz cw).
    assert (Raw : d_raw (e_dyn e) n0 (A1 [x; y; th; vx; vy; wz]) (A1 [u1; u2; u3]) = Ok (A1 [r0; r1; rt; r2; r3; rw])).
    { rewrite Dr. unfold affine_raw, rot2d_f, rot2d_g. cbn [aidx nth_error bind]. rewrite Iz. 
      destruct (f32_const lm) as (_ & _ & _ & I0).
      cbn [matvec forallb length Nat.eqb andb map bind aidx nth_error].
      change (nf32 (n0 : f64)) with (f64_f32 (n0 : f64)) in I0. change (@nf32 f64 (F64 lm)) with f64_f32. rewrite I0. reflexivity. }
    assert (B0 : forall (q : f64) (b : f64), ap 0 103 (-1075) q (B2R q) (Rabs (B2R q)) -> ap 0 90 (-1075) b (B2R b) (Rabs (B2R b)) ->
      let r := nadd q (row3 n0 n0 n0 u1 u2 u3) in
      is_finite r = true /\ is_finite (nadd b (nmul h r)) = true /\
      Rabs (B2R (nadd b (nmul h r)) - (B2R b + B2R h * (B2R q + 0))) <= bpow radix2 (-46) * (Rabs (B2R b) + Rabs (B2R h) * (Rabs (B2R q) + 0)) + bpow radix2 (-700)).
    { intros q b Aq Ab r. assert (Q : exists k G D t g, ap k G D (nadd b (nmul h r)) t g /\ (k <= 64)%nat /\ (D <= -700)%Z /\ is_finite r = true /\
        t = B2R b + B2R h * (B2R q + 0) /\ g = Rabs (B2R b) + Rabs (B2R h) * (Rabs (B2R q) + 0)).
      { unfold r, row3. do 5 eexists. split; [apx|]. split; [cbn; lia|]. split; [cbn; lia|]. split; [eapply ap_fin; apx|]. split; ring. }
      destruct Q as (k & G & D & t & g & Q & Q1 & Q2 & Q3 & -> & ->). destruct (ap_loose _ _ _ _ _ _ Q Q1 Q2) as (Z1 & Z2 & _). auto. }
    destruct (B0 _ _ A0' Ax) as (F0 & F0' & B0x). destruct (B0 _ _ A1' Ay) as (F1 & F1' & B0y). clear B0. fold r0 in F0, F0', B0x. fold r1 in F1, F1', B0y.
    assert (Bv : forall (q b c1 c2 : f64) k1 t1 k2 t2, ap 0 103 (-1075) q (B2R q) (Rabs (B2R q)) -> ap 0 90 (-1075) b (B2R b) (Rabs (B2R b)) ->
      ap k1 100 (-972) c1 t1 (1 / Rabs (B2R m)) -> ap k2 100 (-972) c2 t2 (1 / Rabs (B2R m)) -> k1 = 3%nat -> k2 = 3%nat ->
      let r := nadd q (row3 c1 c2 n0 u1 u2 u3) in
      let tG := t1 * U1 + t2 * U2 in let gG := (Rabs U1 + Rabs U2) / Rabs (B2R m) in
      is_finite r = true /\ is_finite (nadd b (nmul h r)) = true /\
      Rabs (B2R (nadd b (nmul h r)) - (B2R b + B2R h * (B2R q + tG))) <= bpow radix2 (-46) * (Rabs (B2R b) + Rabs (B2R h) * (Rabs (B2R q) + gG)) + bpow radix2 (-700)).
    { intros q b c1 c2 k1 t1 k2 t2 Aq Ab A1 A2 -> -> r tG gG.
      assert (Q : exists k G D t g, ap k G D (nadd b (nmul h r)) t g /\ (k <= 64)%nat /\ (D <= -700)%Z /\ is_finite r = true /\
        t = B2R b + B2R h * (B2R q + tG) /\ g = Rabs (B2R b) + Rabs (B2R h) * (Rabs (B2R q) + gG)).
      { unfold r, row3, tG, gG, Rdiv. do 5 eexists. split; [apx|]. split; [cbn; lia|]. split; [cbn; lia|]. split; [eapply ap_fin; apx|].
        unfold Rdiv. split; ring. }
      destruct Q as (k & G & D & t & g & Q & Q1 & Q2 & Q3 & -> & ->). destruct (ap_loose _ _ _ _ _ _ Q Q1 Q2) as (Z1 & Z2 & _). auto. }
    assert (Acm1 : ap 3 100 (-972) (ndiv (ncos th) m) (cos (B2R th) / B2R m) (1 / Rabs (B2R m))) by exact Acm.
    assert (Asm1 : ap 3 100 (-972) (ndiv (nsin th) m) (sin (B2R th) / B2R m) (1 / Rabs (B2R m))) by exact Asm.
    assert (Asm2 : ap 3 100 (-972) (ndiv (nneg (nsin th)) m) (- sin (B2R th) / B2R m) (1 / Rabs (B2R m))) by exact Asm'.
    destruct (Bv _ _ _ _ _ _ _ _ A2' Avx Acm1 Asm2 eq_refl eq_refl) as (F2 & F2' & B2). destruct (Bv _ _ _ _ _ _ _ _ A3' Avy Asm1 Acm1 eq_refl eq_refl) as (F3 & F3' & B3).
    clear Bv. fold r2 in F2, F2', B2. fold r3 in F3, F3', B3.
    assert (Bt : exists k G D, ap k G D (nadd th (nmul h ct)) (B2R th + B2R h * clipR (- B2R vel) (B2R vel) (B2R WZ)) (Rabs (B2R th) + Rabs (B2R h) * Rabs (B2R WZ)) /\
      (k <= 12)%nat /\ (D <= -701)%Z /\ is_finite ct = true).
    { assert (Q : exists k G D, ap k G D rt (B2R WZ) (Rabs (B2R WZ)) /\ (k <= 6)%nat /\ (0 <= G <= 200)%Z /\ (-1075 <= D <= -900)%Z).
      { unfold rt, row3. do 3 eexists. split; [eapply ap_eq; [apx|ring|ring]|]. cbn. lia. }
      destruct Q as (k & G & D & Q & Q1 & Q2 & Q3). pose proof (ap_clip _ _ _ _ _ _ _ _ _ Q Fnv Fv Env eq_refl V0) as Qc. fold ct in Qc.
      pose proof (ap_mono k G D 6 200 (-900) _ _ _ Q1 (proj2 Q2) (proj2 Q3) Qc) as Qd.
      do 3 eexists. split; [apx|]. split; [cbn; lia|]. split; [cbn; lia|]. exact (ap_fin _ _ _ _ _ _ Qd). }
    assert (Bw : exists k G D, ap k G D (nadd wz (nmul h sw)) (B2R wz + B2R h * stopR (- B2R vel) (B2R vel) (B2R wz) (clipR (- B2R acc) (B2R acc) (U3 / B2R inertia)))
        (Rabs (B2R wz) + Rabs (B2R h) * (Rabs U3 / Rabs (B2R inertia))) /\ (k <= 64)%nat /\ (D <= -700)%Z /\ is_finite cw = true /\ is_finite sw = true).
    { assert (Q : exists k G D, ap k G D rw (U3 / B2R inertia) (Rabs U3 / Rabs (B2R inertia)) /\ (k <= 9)%nat /\ (0 <= G <= 300)%Z /\ (-1075 <= D <= -900)%Z).
      { unfold rw, row3. do 3 eexists. split; [eapply ap_eq; [apx|unfold Rdiv; ring|unfold Rdiv; ring]|]. cbn. lia. }
      destruct Q as (k & G & D & Q & Q1 & Q2 & Q3). pose proof (ap_clip _ _ _ _ _ _ _ _ _ Q Fna Fa Ena eq_refl A0) as Qc. fold cw in Qc.
      pose proof (ap_mono k G D 9 300 (-900) _ _ _ Q1 (proj2 Q2) (proj2 Q3) Qc) as Qd.
      pose proof (stop64 lm _ _ _ _ _ wz _ _ _ Fnv Fv Fwz Qd) as Qs. fold sw in Qs. rewrite Env in Qs.
      do 3 eexists. split; [apx|]. split; [cbn; lia|]. split; [cbn; lia|]. split; [exact (ap_fin _ _ _ _ _ _ Qd)|exact (ap_fin _ _ _ _ _ _ Qs)]. }
    destruct Bt as (kt & Gt & Dt & Bt & Kt & Lt & Fct). destruct Bw as (kw & Gw & Dw' & Bw & Kw & Lw & Fcw & Fsw).
    (* the step *)
    destruct (euler_list w e h [x; y; th; vx; vy; wz] [fx; fy; mz] [r0; r1; ct; r2; r3; sw] [nnan; nnan; n0; nnan; nnan; nnan]) as (S1 & _ & S3).
    all: try (exact Es || exact De || reflexivity || (rewrite C1; reflexivity) || (rewrite C2; reflexivity) || (rewrite Dm; reflexivity) || (rewrite DM; reflexivity) || exact Dw).
    { rewrite Ds. exact Sa. }
    { rewrite C1, C2. cbn [map clip_list expand length]. fold u1 u2 u3.
      erewrite csd_list with (r := [r0; r1; rt; r2; r3; rw]); [|reflexivity|rewrite Dm; reflexivity|rewrite DM; reflexivity|rewrite Dsm; reflexivity|rewrite DsM; reflexivity|exact Raw].
      rewrite Dm, DM, Dsm, DsM. cbn [expand lim_list map length].
      rewrite (stop_free lm x r0), (stop_free lm y r1), (stop_free lm vx r2), (stop_free lm vy r3) by (assumption || apply Wx || apply Wy || apply Wvx || apply Wvy).
      rewrite (limited_clip nninf npinf (nneg vel) vel th rt Fct), (limited_clip (nneg vel) vel (nneg acc) acc wz rw Fcw). fold ct cw sw.
      rewrite (stop_free lm th ct) by (assumption || apply Wth). reflexivity. }
    rewrite Dm, DM in S3. cbn [expand map clip_list zipw wrap_list length] in S3.
    change (nisnan (nnan : f64)) with true in S3. replace (nisnan (n0 : f64)) with false in S3 by (symmetry; apply (nan_fin lm), (zero64 lm)).
    cbv iota in S3.
    rewrite (proj1 (fin_free lm _ F0')), (proj1 (fin_free lm _ F1')), (proj1 (fin_free lm _ F2')), (proj1 (fin_free lm _ F3')), (proj1 (fin_free lm _ (ap_fin _ _ _ _ _ _ Bt))) in S3.
    eexists. split; [exact S1|]. split; [exact S3|]. split; [|split; [reflexivity|]].
    2: { cbn [nth]. destruct (wrap64_range lm _ (ap_fin _ _ _ _ _ _ Bt)) as [_ Wr]. pose proof pi64_bounds. apply Rabs_le. lra. }
    unfold rot2d_follows. cbn [map].
    split; [|split; [|split; [|split; [|split]]]].
    - eapply (follow_rate p0 _ (B2R VX) (Rabs (B2R VX)) (B2R vx) (Rabs (B2R vx)) _ _ 0 0); try eassumption; try lra.
    - eapply (follow_rate p1 _ (B2R VY) (Rabs (B2R VY)) (B2R vy) (Rabs (B2R vy)) _ _ 0 0); try eassumption; try lra.
    - destruct (ap_wrap' lm _ _ _ _ _ _ Bt Kt Lt) as [Y1 (kk & Y2)]. split; [exact Y1|]. exists kk.
      set (W := wrap1 n0 (nadd th (nmul h ct))) in *. set (V := B2R vel) in *. unfold single_error.
      replace (B2R W - (B2R th + B2R h * clipR (- V) V (B2R wz) + 2 * IZR kk * PI)) with
        ((B2R W - (B2R th + B2R h * clipR (- V) V (B2R WZ) + 2 * IZR kk * PI)) + B2R h * (clipR (- V) V (B2R WZ) - clipR (- V) V (B2R wz))) by ring.
      eapply Rle_trans; [apply Rabs_triang|]. rewrite Rabs_mult. pose proof (Rabs_pos (B2R h)) as H0. set (H := Rabs (B2R h)) in *.
      assert (Z1 : H * Rabs (clipR (- V) V (B2R WZ) - clipR (- V) V (B2R wz)) <= H * (bpow radix2 (-24) * Rabs (B2R wz) + bpow radix2 (-150))).
      { apply Rmult_le_compat_l; [exact H0|]. eapply Rle_trans; [apply clipR_near|exact EWZ]. }
      assert (Z2 : H * Rabs (B2R WZ) <= H * (3 / 2 * Rabs (B2R wz) + bpow radix2 (-150))) by (apply Rmult_le_compat_l; [exact H0|exact BWZ]).
      destruct pows as (Q1 & Q2 & Q3 & Q4 & Q5 & Q6).
      assert (E47 : bpow radix2 (-47) = / 2 * bpow radix2 (-46)) by (change (-46)%Z with (1 + -47)%Z; rewrite (bpow_plus radix2 1); change (bpow radix2 1) with 2; lra).
      assert (E44 : bpow radix2 (-44) = 4 * bpow radix2 (-46)) by (change (-44)%Z with (2 + -46)%Z; rewrite (bpow_plus radix2 2); change (bpow radix2 2) with 4; lra).
      assert (E699 : bpow radix2 (-699) = 2 * bpow radix2 (-700)) by (change (-699)%Z with (1 + -700)%Z; rewrite (bpow_plus radix2 1); change (bpow radix2 1) with 2; lra).
      rewrite E47, E699 in Y2. rewrite E44, Q1, Q5. 
      assert (Z3 : bpow radix2 (-46) * (H * (3 / 2 * Rabs (B2R wz) + bpow radix2 (-150))) <= bpow radix2 (-24) * (H * (3 / 2 * Rabs (B2R wz) + bpow radix2 (-150)))).
      { apply Rmult_le_compat_r; [|apply bpow_le; lia]. pose proof (Rmult_le_pos _ _ H0 (Rabs_pos (B2R WZ))). lra. }
      assert (Z4 : bpow radix2 (-46) * (H * Rabs (B2R WZ)) <= bpow radix2 (-46) * (H * (3 / 2 * Rabs (B2R wz) + bpow radix2 (-150)))).
      { apply Rmult_le_compat_l; [left; apply bpow_gt_0|exact Z2]. }
      set (u := bpow radix2 (-24)) in *. set (w0 := bpow radix2 (-150)) in *. pose proof (bpow_gt_0 radix2 (-46)) as U46. set (u2' := bpow radix2 (-46)) in *.
      assert (Z5 : u * (H * w0) <= 1 * (H * w0)) by (apply Rmult_le_compat_r; [apply Rmult_le_pos; lra|lra]).
      assert (Z6 : 0 <= H * w0) by (apply Rmult_le_pos; lra).
      assert (Z7 : 0 <= u * (H * Rabs (B2R wz))) by (apply Rmult_le_pos; [lra|apply Rmult_le_pos; [lra|apply Rabs_pos]]).
      assert (Z8 : 0 <= u2' * Rabs (B2R th)) by (apply Rmult_le_pos; [lra|apply Rabs_pos]).
      lra.
    - assert (I0 : 0 <= / Rabs (B2R m)) by (left; apply Rinv_0_lt_compat; pose proof (bpow_gt_0 radix2 (-100)); lra).
      eapply follow_rate; [exact FP2|exact EP2|exact TP2|exact T2a|exact T2b|exact T2c|exact T2d| |exact F2'|exact B2| |].
      + unfold Rdiv. apply Rmult_le_pos; [|exact I0]. pose proof (Rabs_pos U1). pose proof (Rabs_pos U2). lra.
      + unfold Rdiv. ring.
      + apply Rle_refl.
    - assert (I0 : 0 <= / Rabs (B2R m)) by (left; apply Rinv_0_lt_compat; pose proof (bpow_gt_0 radix2 (-100)); lra).
      eapply follow_rate; [exact FP3|exact EP3|exact TP3|exact T3a|exact T3b|exact T3c|exact T3d| |exact F3'|exact B3| |].
      + unfold Rdiv. apply Rmult_le_pos; [|exact I0]. pose proof (Rabs_pos U1). pose proof (Rabs_pos U2). lra.
      + unfold Rdiv. ring.
      + apply Rle_refl.
    - destruct (clip64 lm _ _ _ (ap_fin _ _ _ _ _ _ Bw) Fnv Fv) as [Y1 Y2]. split; [exact Y1|]. rewrite Y2, Env.
      eapply Rle_trans; [apply clipR_near|]. destruct (ap_loose _ _ _ _ _ _ Bw Kw Lw) as (_ & Z & _). eapply Rle_trans; [exact Z|].
      unfold single_error. rewrite Rmult_plus_distr_l. pose proof (Rabs_pos (B2R h)) as H0.
      assert (I0 : 0 <= / Rabs (B2R inertia)) by (left; apply Rinv_0_lt_compat; pose proof (bpow_gt_0 radix2 (-100)); lra).
      assert (Z0 : 0 <= Rabs (B2R h) * (Rabs U3 / Rabs (B2R inertia))) by (apply Rmult_le_pos; [exact H0|apply Rmult_le_pos; [apply Rabs_pos|exact I0]]).
      apply Rplus_le_compat; [apply Rplus_le_compat_l; apply Rmult_le_compat_r; [exact Z0|apply bpow_le; lia]|].
      assert (bpow radix2 (-700) <= bpow radix2 (-140) * 1) by (rewrite Rmult_1_r; apply bpow_le; lia).
      assert (0 <= bpow radix2 (-140) * Rabs (B2R h)) by (apply Rmult_le_pos; [left; apply bpow_gt_0|exact H0]). lra.
  Qed.

  Lemma rot2d_round_turn (w : world f64) m inertia al vl iw aw vw acc vel n samples jax x0 y0 th0 vx0 vy0 wz0 e0 s0 acts e h x y th vx vy wz (fx fy mz : f64) :
    accurate lm -> rot2d_spacecraft w m inertia al vl iw aw vw n samples "Euler" jax x0 y0 th0 vx0 vy0 wz0 = Ok e0 ->
    rot2d_limit al iw aw inertia = Ok acc -> rot2d_limit vl iw vw inertia = Ok vel ->
    run w (set_state e0 s0) acts = Ok e -> (samples <= 0)%Z ->
    is_finite m = true -> bpow radix2 (-100) <= Rabs (B2R m) -> SpecRound.within 40 inertia -> bpow radix2 (-100) <= Rabs (B2R inertia) ->
    SpecRound.within 40 acc -> SpecRound.within 40 vel -> 0 <= B2R acc -> 0 <= B2R vel -> SpecRound.within 0 n -> SpecRound.within 90 h ->
    Forall (SpecRound.within 90) [x; y; th; vx; vy; wz] -> Forall (fun f : f64 => is_finite f = true) [fx; fy; mz] ->
    e_state e = A1 [x; y; th; vx; vy; wz] ->
    let o := entity_step w e h (AArr (A1 [fx; fy; mz])) in
    let M := B2R (nmul acc inertia) in
    exists s', o_res o = Ok tt /\ e_state (o_entity o) = A1 s' /\
      rot2d_follows (B2R m) (B2R inertia) (B2R acc) (B2R vel) (B2R n) (B2R h) (map B2R [x; y; th; vx; vy; wz])
        [clipR (-1) 1 (B2R fx); clipR (-1) 1 (B2R fy); clipR (- M) M (B2R mz)] s' /\ Rabs (B2R (nth 2 s' n0)) <= 4.
  Proof.
    intros Ac E La Lv Rn Sa Fm Hm Wi Hi Wa Wv A0 V0 Wn Wh Ws Fu Es o M. pose proof (run_config _ _ _ _ Rn) as (Ed & _ & E1 & E2 & _).
    destruct (rot2d_craft_inv _ _ _ _ _ _ _ _ _ _ _ _ _ _ _ _ _ _ _ E) as (qa & qv & Qa & Qv & D & C1 & C2 & _).
    unfold rot2d_limit in La, Lv. rewrite Qa in La. rewrite Qv in Lv. cbn [bind] in La, Lv. injection La as <-. injection Lv as <-.
    change (e_dyn (set_state e0 s0)) with (e_dyn e0) in Ed. change (e_cmin (set_state e0 s0)) with (e_cmin e0) in E1.
    change (e_cmax (set_state e0 s0)) with (e_cmax e0) in E2. rewrite <- Ed in D. rewrite C1 in E1. rewrite C2 in E2.
    destruct (rot2d_round w e m inertia _ _ n samples jax h x y th vx vy wz fx fy mz Ac D Sa E1 E2 Fm Hm Wi Hi Wa Wv A0 V0 Wn Wh Ws Fu Es) as (s' & R1 & R2 & R3 & _ & R4).
    exists s'. auto.
  Qed.
  Lemma rot2d_round_run (w : world f64) m inertia al vl iw aw vw acc vel n samples jax x0 y0 th0 vx0 vy0 wz0 e0 s0 acts e h x y th vx vy wz (fx fy mz : f64) :
    accurate lm -> rot2d_spacecraft w m inertia al vl iw aw vw n samples "Euler" jax x0 y0 th0 vx0 vy0 wz0 = Ok e0 ->
    rot2d_limit al iw aw inertia = Ok acc -> rot2d_limit vl iw vw inertia = Ok vel ->
    run w (set_state e0 s0) acts = Ok e -> (samples <= 0)%Z ->
    is_finite m = true -> bpow radix2 (-100) <= Rabs (B2R m) -> SpecRound.within 40 inertia -> bpow radix2 (-100) <= Rabs (B2R inertia) ->
    SpecRound.within 40 acc -> SpecRound.within 40 vel -> 0 <= B2R acc -> 0 <= B2R vel -> SpecRound.within 0 n -> SpecRound.within 90 h ->
    Forall (SpecRound.within 90) [x; y; th; vx; vy; wz] -> Forall (fun f : f64 => is_finite f = true) [fx; fy; mz] ->
    e_state e = A1 [x; y; th; vx; vy; wz] ->
    let o := entity_step w e h (AArr (A1 [fx; fy; mz])) in
    let M := B2R (nmul acc inertia) in
    exists s', o_res o = Ok tt /\ e_state (o_entity o) = A1 s' /\
      rot2d_follows (B2R m) (B2R inertia) (B2R acc) (B2R vel) (B2R n) (B2R h) (map B2R [x; y; th; vx; vy; wz])
        [clipR (-1) 1 (B2R fx); clipR (-1) 1 (B2R fy); clipR (- M) M (B2R mz)] s'.
  Proof.
    intros Ac E La Lv Rn Sa Fm Hm Wi Hi Wa Wv A0 V0 Wn Wh Ws Fu Es o M.
    destruct (rot2d_round_turn w m inertia al vl iw aw vw acc vel n samples jax x0 y0 th0 vx0 vy0 wz0 e0 s0 acts e h x y th vx vy wz fx fy mz
      Ac E La Lv Rn Sa Fm Hm Wi Hi Wa Wv A0 V0 Wn Wh Ws Fu Es) as (s' & R1 & R2 & R3 & _).
    exists s'. auto.
  Qed.
End F.
