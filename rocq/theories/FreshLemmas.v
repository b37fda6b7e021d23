(** Flights of a new two-dimensional aircraft (C115). *)
From Coq Require Import String ZArith Reals Bool List Lra Lia Psatz.
From Flocq Require Import Core.Core IEEE754.BinarySingleNaN.
From Verif Require Import PyBase Num Arr BaseModel Dubins Spec SpecCwh NumOrdLemmas ArrLemmas BaseLemmas BaseLemmas2 BaseLemmas3 LimLemmas
  Float64 XTac F64Wrap F64Bound F64Err ConvLemmas SpecRound RoundCwh SpecLin LinRound WrapErr SpecFly FlyRound FlyRun FlyEx F32 Fresh SpecFresh.
Import List ListNotations.
Local Open Scope R_scope.

Lemma f32_idem (a : f64) : is_finite (f64_f32 a) = true -> is_f32 (f64_f32 a).
Proof.
  intros F. split; [exact F|]. set (y := f64_f32 a) in *.
  assert (R : rnd32 (B2R y) = B2R y) by (apply round_generic; [apply valid_rnd_N|apply f32_fmt]).
  assert (L : Rabs (rnd32 (B2R y)) < bpow radix2 128).
  { rewrite R. unfold y, f64_f32. rewrite (proj2 (from32 _)). apply abs_B2R_lt_emax. }
  destruct (f32_val y F L) as [A B]. rewrite R in B.
  destruct y as [s|s| |s m e He] eqn:E; try discriminate; [reflexivity|].
  apply B2R_inj; [|reflexivity|exact B].
  destruct (f64_f32 (B754_finite s m e He)) as [t|t| |t m' e' He']; try discriminate; [|reflexivity].
  exfalso. cbn [B2R] in B. symmetry in B. apply eq_0_F2R in B. destruct s; discriminate.
Qed.

Section F.
  Variable lm : libm.
  Local Hint Extern 0 (Num f64) => exact (F64 lm) : typeclass_instances.

  Ltac apx := lazymatch goal with
    | |- ap _ _ _ (nadd _ _) _ _ => eapply nadd_ap; [apx|apx|reflexivity]
    | |- ap _ _ _ (nmul _ _) _ _ => eapply nmul_ap; [apx|apx|reflexivity]
    | |- ap _ _ _ (nneg _) _ _ => eapply nneg_ap; apx
    | |- ap _ _ _ n0 _ _ => apply ap0
    | |- ap _ _ _ n1 _ _ => apply ap1
    | |- ap _ _ _ (limited_dot _ _ _ _ _ _) _ _ => eapply (stop64 lm); [eassumption|eassumption|eassumption|apx]
    | |- _ => eassumption
    end.

  Lemma fly_euler_raw (w : world f64) (e : entity f64) f xd yd v_min v_max samples hr_min hr_max acc_min acc_max h x y hd v (hr acc : f64) :
    e_dyn e = {| d_min := A1 (map nf32 [nninf; nninf; nninf; v_min]); d_max := A1 (map nf32 [npinf; npinf; npinf; v_max]);
                 d_wrap := Some (A1 (map nf32 [nnan; nnan; n0; nnan])); d_use_jax := false; d_samples := samples; d_sdmin := no_min; d_sdmax := no_max;
                 d_method := "Euler"; d_raw := affine_raw f dubins2d_g |} -> f (A1 [x; y; hd; v]) = Ok (A1 [xd; yd; n0; n0]) ->
    within 100 xd -> within 100 yd -> (samples <= 0)%Z ->
    e_cmin e = A1 [hr_min; acc_min] -> e_cmax e = A1 [hr_max; acc_max] ->
    is_finite (nf32 v_min) = true -> is_finite (nf32 v_max) = true ->
    Forall (within 100) [hr_min; hr_max; acc_min; acc_max] -> within 100 h -> Forall (within 100) [x; y; hd; v] ->
    Forall (fun f : f64 => is_finite f = true) [hr; acc] -> e_state e = A1 [x; y; hd; v] ->
    let o := entity_step w e h (AArr (A1 [hr; acc])) in
    let lo := B2R (nf32 v_min) in let hi := B2R (nf32 v_max) in
    let r := clipR (B2R hr_min) (B2R hr_max) (B2R hr) in
    let a := stopR lo hi (B2R v) (clipR (B2R acc_min) (B2R acc_max) (B2R acc)) in
    exists x' y' hd' v', o_res o = Ok tt /\ e_state (o_entity o) = A1 [x'; y'; hd'; v'] /\
      agrees x' (B2R x + B2R h * B2R xd) (Rabs (B2R x) + Rabs (B2R h) * Rabs (B2R xd)) /\
      agrees y' (B2R y + B2R h * B2R yd) (Rabs (B2R y) + Rabs (B2R h) * Rabs (B2R yd)) /\
      is_finite hd' = true /\ - pi64 <= B2R hd' <= pi64 /\
      angle_near (bpow radix2 (-48) * (Rabs (B2R hd) + Rabs (B2R h) * Rabs r + 8) + bpow radix2 (-700)) (B2R hd') (B2R hd + B2R h * r) /\
      agrees v' (clipR lo hi (B2R v + B2R h * a)) (Rabs (B2R v) + Rabs (B2R h) * Rabs (clipR (B2R acc_min) (B2R acc_max) (B2R acc))) /\
      (exists z, B2R v' = clipR lo hi z).
  Proof.
    intros Ed Ef Wxd Wyd Sa C1 C2 Fl Fh Wc Wh Ws Fu Es o lo hi r a.
    apply Forall_cons_iff in Wc as [Wc1 Wc]. apply Forall_cons_iff in Wc as [Wc2 Wc]. apply Forall_cons_iff in Wc as [Wc3 Wc].
    apply Forall_cons_iff in Wc as [Wc4 _].
    apply Forall_cons_iff in Ws as [Wx Ws]. apply Forall_cons_iff in Ws as [Wy Ws]. apply Forall_cons_iff in Ws as [Whd Ws].
    apply Forall_cons_iff in Ws as [Wv _].
    apply Forall_cons_iff in Fu as [Fhr Fu]. apply Forall_cons_iff in Fu as [Facc _].
    destruct (clip_within lm hr hr_min hr_max Fhr Wc1 Wc2) as [Wu1 Eu1].
    destruct (clip_within lm acc acc_min acc_max Facc Wc3 Wc4) as [Wu2 Eu2].
    set (u1 := clip1 hr hr_min hr_max) in *. set (u2 := clip1 acc acc_min acc_max) in *.
    pose proof (ap_in xd 100 Wxd) as Axd. pose proof (ap_in yd 100 Wyd) as Ayd.
    pose proof (ap_in x 100 Wx) as Ax. pose proof (ap_in y 100 Wy) as Ay. pose proof (ap_in hd 100 Whd) as Ahd. pose proof (ap_in v 100 Wv) as Av.
    pose proof (ap_in h 100 Wh) as Ah. pose proof (ap_in u1 100 Wu1) as Au1. pose proof (ap_in u2 100 Wu2) as Au2.
    pose proof (proj1 Wv) as Fv.
    pose (r1 := nadd xd (nadd (nadd n0 (nmul n0 u1)) (nmul n0 u2))).
    pose (r2 := nadd yd (nadd (nadd n0 (nmul n0 u1)) (nmul n0 u2))).
    pose (r3 := nadd n0 (nadd (nadd n0 (nmul n1 u1)) (nmul n0 u2))).
    pose (r4 := nadd n0 (nadd (nadd n0 (nmul n0 u1)) (nmul n1 u2))).
    pose (r4' := limited_dot (nf32 v_min) (nf32 v_max) nninf npinf v r4).
    assert (B1 : exists k G D t g, ap k G D (nadd x (nmul h r1)) t g /\ (k <= 8)%nat /\ (D <= -701)%Z /\ is_finite r1 = true /\
      t = B2R x + B2R h * B2R xd /\ g = Rabs (B2R x) + Rabs (B2R h) * Rabs (B2R xd)).
    { unfold r1. do 5 eexists. split; [apx|]. split; [cbn; lia|]. split; [cbn; lia|]. split; [eapply ap_fin; apx|]. split; ring. }
    assert (B2 : exists k G D t g, ap k G D (nadd y (nmul h r2)) t g /\ (k <= 8)%nat /\ (D <= -701)%Z /\ is_finite r2 = true /\
      t = B2R y + B2R h * B2R yd /\ g = Rabs (B2R y) + Rabs (B2R h) * Rabs (B2R yd)).
    { unfold r2. do 5 eexists. split; [apx|]. split; [cbn; lia|]. split; [cbn; lia|]. split; [eapply ap_fin; apx|]. split; ring. }
    assert (B3 : exists k G D t g, ap k G D (nadd hd (nmul h r3)) t g /\ (k <= 8)%nat /\ (D <= -701)%Z /\ is_finite r3 = true /\
      t = B2R hd + B2R h * r /\ g = Rabs (B2R hd) + Rabs (B2R h) * Rabs r).
    { unfold r3. do 5 eexists. split; [apx|]. split; [cbn; lia|]. split; [cbn; lia|]. split; [eapply ap_fin; apx|].
      unfold r. rewrite <- Eu1. split; ring. }
    assert (B4 : exists k G D t g, ap k G D (nadd v (nmul h r4')) t g /\ (k <= 8)%nat /\ (D <= -701)%Z /\ is_finite r4 = true /\
      t = B2R v + B2R h * a /\ g = Rabs (B2R v) + Rabs (B2R h) * Rabs (clipR (B2R acc_min) (B2R acc_max) (B2R acc))).
    { unfold r4', r4. do 5 eexists. split; [apx|]. split; [cbn; lia|]. split; [cbn; lia|]. split; [eapply ap_fin; apx|].
      unfold a, lo, hi. rewrite <- Eu2. split; [|ring]. do 3 f_equal. ring. }
    destruct B1 as (k1 & G1 & D1 & t1 & g1 & B1 & K1 & L1 & F1 & -> & ->).
    destruct B2 as (k2 & G2 & D2 & t2 & g2 & B2 & K2 & L2 & F2 & -> & ->).
    destruct B3 as (k3 & G3 & D3 & t3 & g3 & B3 & K3 & L3 & F3 & -> & ->).
    destruct B4 as (k4 & G4 & D4 & t4 & g4 & B4 & K4 & L4 & F4 & -> & ->).
    destruct (f32_const lm) as (I1 & I2 & I3 & I4).
    destruct (euler_list w e h [x; y; hd; v] [hr; acc] [r1; r2; r3; r4'] [nnan; nnan; n0; nnan]) as (R1 & _ & R3).
    all: try (rewrite Ed; try reflexivity; try exact Sa).
    all: try (exact Es || reflexivity || (rewrite C1; reflexivity) || (rewrite C2; reflexivity)).
    { rewrite C1, C2. cbn [map clip_list expand length]. fold u1 u2.
      erewrite csd_list with (r := [r1; r2; r3; r4]).
      2-7: try reflexivity.
      2: { cbn [d_raw]. unfold affine_raw. rewrite Ef. reflexivity. }
      cbn [expand lim_list map d_min d_max d_sdmin d_sdmax length repeat no_min no_max]. rewrite I1, I2.
      rewrite (stop_free lm x r1), (stop_free lm y r2), (stop_free lm hd r3) by (assumption || apply Wx || apply Wy || apply Whd). reflexivity. }
    cbn [length] in R3. rewrite Ed in R3. cbn [d_min d_max expand map clip_list zipw wrap_list] in R3.
    rewrite I1, I2 in R3.
    change (nisnan (nnan : f64)) with true in R3. replace (nisnan (n0 : f64)) with false in R3 by (symmetry; apply (nan_fin lm), (zero64 lm)).
    cbv iota in R3.
    rewrite (proj1 (fin_free lm _ (ap_fin _ _ _ _ _ _ B1))), (proj1 (fin_free lm _ (ap_fin _ _ _ _ _ _ B2))), (proj1 (fin_free lm _ (ap_fin _ _ _ _ _ _ B3))) in R3.
    destruct (clip64 lm _ _ _ (ap_fin _ _ _ _ _ _ B4) Fl Fh) as [Fv' Ev'].
    destruct (ap_wrap lm _ _ _ _ _ _ B3 K3 L3) as [Fw Nw].
    do 4 eexists. split; [exact R1|]. split; [exact R3|].
    split; [eapply ap_final; [exact B1|lia|lia|reflexivity|reflexivity]|].
    split; [eapply ap_final; [exact B2|lia|lia|reflexivity|reflexivity]|].
    split; [exact Fw|]. split; [apply (wrap64_range lm _ (ap_fin _ _ _ _ _ _ B3))|]. split; [exact Nw|].
    split; [|eexists; exact Ev'].
    destruct (ap_final _ _ _ _ _ _ _ _ B4 ltac:(lia) ltac:(lia) eq_refl eq_refl) as [_ Q].
    split; [exact Fv'|]. rewrite Ev'. eapply Rle_trans; [apply clipR_near|exact Q].
  Qed.

  (** A float32 product with an approximate sine or cosine. *)
  Lemma prod32 (v c : f64) t : within 99 v -> is_finite c = true -> Rabs t <= 1 -> Rabs (B2R c - t) <= bpow radix2 (-22) ->
    is_finite (nf32 (nmul v c)) = true /\
    Rabs (B2R (nf32 (nmul v c)) - B2R v * t) <= bpow radix2 (-21) * Rabs (B2R v) + bpow radix2 (-149).
  Proof.
    intros [Fv Bv] Fc T Ec. set (z := nmul v c).
    assert (Sc : Rabs (B2R c) <= 1 + / 1000).
    { replace (B2R c) with ((B2R c - t) + t) by ring. eapply Rle_trans; [apply Rabs_triang|]. simpl (bpow radix2 (-22)) in Ec. lra. }
    assert (Bc : bounded 1 c) by (split; [exact Fc|simpl; lra]).
    pose proof (bounded_mul 99 1 v c ltac:(lia) (conj Fv Bv) Bc) as [Fz Bz].
    change (Bmult mode_NE v c) with z in Fz, Bz.
    assert (Ez : B2R z = rnd64 (B2R v * B2R c)).
    { pose proof (Bmult_correct 53 1024 _ _ mode_NE v c) as Q. rewrite Rlt_bool_true in Q; [apply Q|].
      eapply Rle_lt_trans; [apply (rnd_bounded 100); [lia|]|apply bpow_lt_emax; lia].
      change (bpow radix2 100) with (bpow radix2 (99 + 1)). rewrite bpow_plus, Rabs_mult.
      apply Rmult_le_compat; try apply Rabs_pos; [exact Bv|apply Bc]. }
    pose proof (rnd_err (B2R v * B2R c)) as E1. rewrite <- Ez in E1.
    destruct (f32_err z Fz) as [F32 E2].
    { eapply Rle_trans; [exact Bz|]. apply bpow_le. lia. }
    split; [exact F32|]. change (nf32 z) with (f64_f32 z).
    assert (E3 : Rabs (B2R v * B2R c - B2R v * t) <= bpow radix2 (-22) * Rabs (B2R v)).
    { replace (B2R v * B2R c - B2R v * t) with (B2R v * (B2R c - t)) by ring. rewrite Rabs_mult, Rmult_comm.
      apply Rmult_le_compat_r; [apply Rabs_pos|exact Ec]. }
    assert (E4 : Rabs (B2R v * B2R c) <= Rabs (B2R v) * (1 + / 1000)).
    { rewrite Rabs_mult. apply Rmult_le_compat_l; [apply Rabs_pos|exact Sc]. }
    assert (E5 : Rabs (B2R z) <= Rabs (B2R z - B2R v * B2R c) + Rabs (B2R v * B2R c)).
    { replace (B2R z) with ((B2R z - B2R v * B2R c) + B2R v * B2R c) at 1 by ring. apply Rabs_triang. }
    replace (B2R (f64_f32 z) - B2R v * t) with
      ((B2R (f64_f32 z) - B2R z) + ((B2R z - B2R v * B2R c) + (B2R v * B2R c - B2R v * t))) by ring.
    eapply Rle_trans; [apply Rabs_triang|]. eapply Rle_trans; [apply Rplus_le_compat_l, Rabs_triang|].
    assert (K : eta64 <= bpow radix2 (-150) / 4).
    { replace (bpow radix2 (-150) / 4) with (bpow radix2 (-152)); [apply bpow_le; lia|].
      change (-152)%Z with (-2 + -150)%Z. rewrite bpow_plus. simpl (bpow radix2 (-2)). lra. }
    assert (K' : bpow radix2 (-149) = 2 * bpow radix2 (-150)) by (change (-149)%Z with (-150 + 1)%Z; apply bpow2_S).
    rewrite K'. pose proof (bpow_gt_0 radix2 (-150)) as K0. set (q := bpow radix2 (-150)) in *. clearbody q.
    unfold u64 in E1. simpl (bpow radix2 (-53)) in E1. simpl (bpow radix2 (-24)) in E2. simpl (bpow radix2 (-22)) in E3. simpl (bpow radix2 (-21)).
    pose proof (Rabs_pos (B2R v)). lra.
  Qed.

  Section R.
    Variables (m : libm32) (w : world f64) (v_min v_max hr_min hr_max acc_min acc_max : f64) (samples : Z) (B H V Q C : R).
    Hypotheses (Ac : accurate lm) (Am : accurate32 m) (Sa : (samples <= 0)%Z)
      (Fl : is_finite (nf32 v_min) = true) (Fh : is_finite (nf32 v_max) = true)
      (Wc : Forall (within 100) [hr_min; hr_max; acc_min; acc_max])
      (V1 : Rabs (B2R (nf32 v_min)) <= V) (V2 : Rabs (B2R (nf32 v_max)) <= V)
      (Q1 : Rabs (B2R hr_min) <= Q) (Q2 : Rabs (B2R hr_max) <= Q)
      (C1 : Rabs (B2R acc_min) <= C) (C2 : Rabs (B2R acc_max) <= C) (H0 : 0 <= H).
    Let L := {| v_lo := B2R (nf32 v_min); v_hi := B2R (nf32 v_max); r_lo := B2R hr_min; r_hi := B2R hr_max; a_lo := B2R acc_min; a_hi := B2R acc_max |}.

    Lemma new_step x y hd v (h rate acc : f64) X N : (1 <= N)%nat ->
      Forall (fun a : f64 => is_finite (f64_f32 a) = true) [x; y; hd; v] ->
      Rabs (B2R (f64_f32 x)) <= X -> Rabs (B2R (f64_f32 y)) <= X -> Rabs (B2R (f64_f32 hd)) + 1 <= B -> Rabs (B2R (f64_f32 v)) <= V ->
      X + INR N * (H * V) + 1 <= B -> B <= bpow radix2 99 -> V <= bpow radix2 99 ->
      first_error H V <= 1 ->
      within 100 h -> 0 <= B2R h <= H -> is_finite rate = true -> is_finite acc = true ->
      let e0 := dubins2d_aircraft samples "Euler" v_min v_max hr_min hr_max acc_min acc_max x y hd v in
      let o := entity_step w (with_raw e0 (affine_raw (dubins2d_f32 lm m) dubins2d_g)) h (AArr (A1 [rate; acc])) in
      let p := {| px := B2R (f64_f32 x); py := B2R (f64_f32 y); phead := B2R (f64_f32 hd); pv := B2R (f64_f32 v) |} in
      o_res o = Ok tt /\
      fly_inv lm v_min v_max hr_min hr_max acc_min acc_max samples B H V Q C X (first_error H V) 1
        (with_raw (o_entity o) (d_raw (e_dyn e0))) (fly1 L (B2R h) (B2R rate) (B2R acc) p).
    Proof.
      intros HN Fs Xx Xy Xh Xv Bx B99 V99 FE Wh Hh Fr Fa e0 o p.
      apply Forall_cons_iff in Fs as [Fx Fs]. apply Forall_cons_iff in Fs as [Fy Fs]. apply Forall_cons_iff in Fs as [Fhd Fs].
      apply Forall_cons_iff in Fs as [Fv _].
      destruct (Am _ (f32_idem hd Fhd)) as [[Fc Ec] [Fsn Esn]].
      set (xd := nf32 (nmul (f64_f32 v) (cos32 m (f64_f32 hd)))). set (yd := nf32 (nmul (f64_f32 v) (sin32 m (f64_f32 hd)))).
      assert (Wv : within 99 (f64_f32 v)) by (split; [exact Fv|lra]).
      pose proof (COS_bound (B2R (f64_f32 hd))) as Cb. pose proof (SIN_bound (B2R (f64_f32 hd))) as Sb.
      destruct (prod32 _ _ (cos (B2R (f64_f32 hd))) Wv Fc ltac:(apply Rabs_le; lra) Ec) as [Fxd Exd].
      destruct (prod32 _ _ (sin (B2R (f64_f32 hd))) Wv Fsn ltac:(apply Rabs_le; lra) Esn) as [Fyd Eyd].
      fold xd in Fxd, Exd. fold yd in Fyd, Eyd.
      assert (T : 2 * bpow radix2 99 = bpow radix2 100) by (rewrite <- bpow2_S; reflexivity).
      assert (T4 : 4 <= bpow radix2 99) by (apply (bpow_le radix2 2); lia).
      assert (HV : 0 <= H * V) by (apply Rmult_le_pos; [exact H0|eapply Rle_trans; [apply Rabs_pos|exact V1]]).
      assert (HN' : H * V <= INR N * (H * V)).
      { apply le_INR in HN. change (INR 1) with 1 in HN. rewrite <- (Rmult_1_l (H * V)) at 1. apply Rmult_le_compat_r; lra. }
      pose proof (Rabs_pos (B2R (f64_f32 v))) as Pv.
      assert (K : bpow radix2 (-149) <= / 1000) by (apply (Rle_trans _ (bpow radix2 (-10))); [apply bpow_le; lia|simpl; lra]).
      assert (Szd : forall (d : f64) (t : R), Rabs (B2R d - B2R (f64_f32 v) * t) <= bpow radix2 (-21) * Rabs (B2R (f64_f32 v)) + bpow radix2 (-149) ->
        -1 <= t <= 1 -> Rabs (B2R d) <= V + V * bpow radix2 (-21) + bpow radix2 (-149)).
      { intros d t E Ht. replace (B2R d) with ((B2R d - B2R (f64_f32 v) * t) + B2R (f64_f32 v) * t) by ring. eapply Rle_trans; [apply Rabs_triang|].
        assert (Rabs (B2R (f64_f32 v) * t) <= V).
        { rewrite Rabs_mult, <- (Rmult_1_r V). apply Rmult_le_compat; auto using Rabs_pos. apply Rabs_le. lra. }
        assert (bpow radix2 (-21) * Rabs (B2R (f64_f32 v)) <= bpow radix2 (-21) * V) by (apply Rmult_le_compat_l; [apply bpow_ge_0|exact Xv]).
        lra. }
      pose proof (Szd xd _ Exd Cb) as Sxd. pose proof (Szd yd _ Eyd Sb) as Syd.
      assert (W100 : V + V * bpow radix2 (-21) + bpow radix2 (-149) <= bpow radix2 100) by (simpl (bpow radix2 (-21)); lra).
      destruct (fly_euler_raw w (with_raw e0 (affine_raw (dubins2d_f32 lm m) dubins2d_g)) (dubins2d_f32 lm m) xd yd v_min v_max samples
        hr_min hr_max acc_min acc_max h (f64_f32 x) (f64_f32 y) (f64_f32 hd) (f64_f32 v) rate acc)
        as (x' & y' & hd' & v' & R1 & R2 & [Fx' Ax] & [Fy' Ay] & Fh' & Rh & Nh & [Fv' Av] & z & Ez); auto.
      { split; [exact Fxd|lra]. }
      { split; [exact Fyd|lra]. }
      { repeat (constructor; [split; [assumption|lra]|]). constructor. }
      fold o in R1, R2. split; [exact R1|].
      pose proof (entity_step_config w (with_raw e0 (affine_raw (dubins2d_f32 lm m) dubins2d_g)) h (AArr (A1 [rate; acc]))) as (K1 & _ & K2 & K3 & _).
      fold o in K1, K2, K3.
      pose proof (Rle_trans _ _ _ (Rabs_pos _) V1) as V0'. pose proof (Rle_trans _ _ _ (Rabs_pos _) Q1) as Q0'.
      pose proof (Rle_trans _ _ _ (Rabs_pos _) C1) as C0'. pose proof (Rle_trans _ _ _ (Rabs_pos _) Xx) as X0'.
      rewrite clip_stop in Av by lra.
      assert (Sz1 : Rabs (clipR (B2R hr_min) (B2R hr_max) (B2R rate)) <= Q) by (apply clipR_size; assumption).
      assert (Sz2 : Rabs (clipR (B2R acc_min) (B2R acc_max) (B2R acc)) <= C) by (apply clipR_size; assumption).
      set (cr := clipR (B2R hr_min) (B2R hr_max) (B2R rate)) in *. set (ca := clipR (B2R acc_min) (B2R acc_max) (B2R acc)) in *.
      rewrite (Rabs_pos_eq (B2R h)) in Ax, Ay, Nh, Av by lra.
      set (r := step_error B H V Q C).
      assert (FE1 : H * (bpow radix2 (-21) * V + bpow radix2 (-149)) <= first_error H V).
      { unfold first_error. apply Rmult_le_compat_l; [exact H0|]. apply Rplus_le_compat; [|apply bpow_le; lia].
        apply Rmult_le_compat_r; [exact V0'|apply bpow_le; lia]. }
      assert (HQ : 0 <= H * Q) by (apply Rmult_le_pos; lra). assert (HC : 0 <= H * C) by (apply Rmult_le_pos; lra).
      assert (Sum : H * (V + Q + C) = H * V + H * Q + H * C) by ring.
      assert (G1 : forall q, q <= B + V + H * (V + Q + C) + 13 -> bpow radix2 (-48) * q + bpow radix2 (-700) <= r).
      { intros q Hq. unfold r, step_error. apply Rplus_le_compat_r, Rmult_le_compat_l; [apply bpow_ge_0|exact Hq]. }
      assert (Hd : forall d : f64, Rabs (B2R d) <= V + V * bpow radix2 (-21) + bpow radix2 (-149) -> B2R h * Rabs (B2R d) <= H * V + 1).
      { intros d E. apply (Rle_trans _ (H * (V + V * bpow radix2 (-21) + bpow radix2 (-149)))).
        - apply Rmult_le_compat; [lra|apply Rabs_pos|lra|exact E].
        - replace (H * (V + V * bpow radix2 (-21) + bpow radix2 (-149))) with (H * V + H * (bpow radix2 (-21) * V + bpow radix2 (-149))) by ring. lra. }
      pose proof (Hd xd Sxd) as Hxd. pose proof (Hd yd Syd) as Hyd.
      assert (HrQ : B2R h * Rabs cr <= H * Q) by (apply Rmult_le_compat; auto using Rabs_pos; lra).
      assert (HaC : B2R h * Rabs ca <= H * C) by (apply Rmult_le_compat; auto using Rabs_pos; lra).
      pose proof (G1 (Rabs (B2R (f64_f32 x)) + B2R h * Rabs (B2R xd)) ltac:(rewrite Sum; lra)) as Gx.
      pose proof (G1 (Rabs (B2R (f64_f32 y)) + B2R h * Rabs (B2R yd)) ltac:(rewrite Sum; lra)) as Gy.
      pose proof (G1 (Rabs (B2R (f64_f32 v)) + B2R h * Rabs ca) ltac:(rewrite Sum; lra)) as Gv.
      pose proof (G1 (Rabs (B2R (f64_f32 hd)) + B2R h * Rabs cr + 8) ltac:(rewrite Sum; lra)) as Gh.
      assert (r0 : 0 <= r).
      { eapply Rle_trans; [|exact Gx]. pose proof (bpow_gt_0 radix2 (-700)).
        assert (0 <= bpow radix2 (-48) * (Rabs (B2R (f64_f32 x)) + B2R h * Rabs (B2R xd))).
        { apply Rmult_le_pos; [apply bpow_ge_0|]. pose proof (Rabs_pos (B2R (f64_f32 x))).
          assert (0 <= B2R h * Rabs (B2R xd)) by (apply Rmult_le_pos; [lra|apply Rabs_pos]). lra. }
        lra. }
      assert (Er1 : r <= fly_error B H V Q C 1).
      { unfold fly_error. fold r. change (INR 1) with 1. assert (0 <= H * (1 + V)) by (apply Rmult_le_pos; lra).
        assert (0 <= H * (1 + V) * r) by (apply Rmult_le_pos; assumption). lra. }
      assert (Mx : forall (a' a : R) (d : f64) (t : R), Rabs (a' - (a + B2R h * B2R d)) <= r ->
        Rabs (B2R d - B2R (f64_f32 v) * t) <= bpow radix2 (-21) * Rabs (B2R (f64_f32 v)) + bpow radix2 (-149) ->
        Rabs (a' - (a + B2R h * (B2R (f64_f32 v) * t))) <= first_error H V + fly_error B H V Q C 1).
      { intros a' a d t A1 A2.
        replace (a' - (a + B2R h * (B2R (f64_f32 v) * t))) with ((a' - (a + B2R h * B2R d)) + B2R h * (B2R d - B2R (f64_f32 v) * t)) by ring.
        eapply Rle_trans; [apply Rabs_triang|]. rewrite Rabs_mult, (Rabs_pos_eq (B2R h)) by lra.
        assert (B2R h * Rabs (B2R d - B2R (f64_f32 v) * t) <= H * (bpow radix2 (-21) * V + bpow radix2 (-149))).
        { apply Rmult_le_compat; [lra|apply Rabs_pos|lra|]. eapply Rle_trans; [exact A2|]. apply Rplus_le_compat_r, Rmult_le_compat_l; [apply bpow_ge_0|exact Xv]. }
        lra. }
      assert (Sp : forall c, -1 <= c <= 1 -> Rabs (B2R h * (B2R (f64_f32 v) * c)) <= H * V).
      { intros c P. rewrite !Rabs_mult, (Rabs_pos_eq (B2R h)) by lra. apply Rmult_le_compat; [lra|apply Rmult_le_pos; apply Rabs_pos|lra|].
        rewrite <- (Rmult_1_r V). apply Rmult_le_compat; auto using Rabs_pos. apply Rabs_le. lra. }
      unfold fly_inv. cbn [fly1 px py phead pv L v_lo v_hi r_lo r_hi a_lo a_hi p]. fold cr ca. fold r. change (INR 1) with 1. rewrite !Rmult_1_l.
      split; [unfold with_raw; cbn [e_dyn]; rewrite K1; reflexivity|].
      split; [unfold with_raw; cbn [e_cmin]; rewrite K2; reflexivity|].
      split; [unfold with_raw; cbn [e_cmax]; rewrite K3; reflexivity|].
      split; [eapply Rle_trans; [apply Rabs_triang|]; apply Rplus_le_compat; [exact Xx|apply Sp, Cb]|].
      split; [eapply Rle_trans; [apply Rabs_triang|]; apply Rplus_le_compat; [exact Xy|apply Sp, Sb]|].
      split; [apply clipR_size; assumption|].
      exists x', y', hd', v'. split; [exact R2|]. split; [repeat (constructor; [assumption|]); constructor|].
      split; [eapply Mx; [eapply Rle_trans; [exact Ax|exact Gx]|exact Exd]|].
      split; [eapply Mx; [eapply Rle_trans; [exact Ay|exact Gy]|exact Eyd]|].
      split; [destruct Nh as [k Nh]; exists k; eapply Rle_trans; [exact Nh|exact Gh]|].
      split; [eapply Rle_trans; [exact Av|exact Gv]|].
      split; [rewrite Ez; apply clipR_size; assumption|].
      pose proof pi64_bounds. pose proof (Rabs_pos (B2R (f64_f32 hd))). apply Rabs_le. lra.
    Qed.
  End R.

  Lemma fly_new (m : libm32) (w : world f64) v_min v_max hr_min hr_max acc_min acc_max samples B H V Q C x0 y0 hd0 v0 l :
    accurate lm -> accurate32 m -> (samples <= 0)%Z ->
    Forall (fun a : f64 => is_finite (f64_f32 a) = true) [v_min; v_max; x0; y0; hd0; v0] ->
    Forall (within 100) [hr_min; hr_max; acc_min; acc_max] ->
    Forall (fun a : f64 => Rabs (B2R (f64_f32 a)) <= V) [v_min; v_max; v0] ->
    Forall (fun a : f64 => Rabs (B2R a) <= Q) [hr_min; hr_max] -> Forall (fun a : f64 => Rabs (B2R a) <= C) [acc_min; acc_max] ->
    0 <= H -> Forall (fly_ok H) l ->
    Forall (fun a : f64 => Rabs (B2R (f64_f32 a)) + INR (length l) * (H * V) + 1 <= B) [x0; y0; hd0] ->
    B <= bpow radix2 99 -> V <= bpow radix2 99 -> first_error H V + fly_error B H V Q C (length l) <= 1 ->
    let L := {| v_lo := B2R (f64_f32 v_min); v_hi := B2R (f64_f32 v_max); r_lo := B2R hr_min; r_hi := B2R hr_max;
                a_lo := B2R acc_min; a_hi := B2R acc_max |} in
    let p := {| px := B2R (f64_f32 x0); py := B2R (f64_f32 y0); phead := B2R (f64_f32 hd0); pv := B2R (f64_f32 v0) |} in
    exists e s, fly_new2d lm m w samples v_min v_max hr_min hr_max acc_min acc_max x0 y0 hd0 v0 (map fly_act l) = Ok e /\
      e_state e = A1 s /\ flies (first_error H V + fly_error B H V Q C (length l)) s (fly L p (map fly_num l)).
  Proof.
    intros Ac Am Sa Ff Wc SV SQ SC H0 Fo SB B99 V99 Er L p.
    assert (Fs : Forall (fun a : f64 => is_finite (f64_f32 a) = true) [x0; y0; hd0; v0]) by (exact (proj2 (proj1 (Forall_app _ [v_min; v_max] _) Ff))).
    apply Forall_cons_iff in Ff as [F1 Ff]. apply Forall_cons_iff in Ff as [F2 _].
    apply Forall_cons_iff in SV as [V1 SV]. apply Forall_cons_iff in SV as [V2 SV]. apply Forall_cons_iff in SV as [V3 _].
    apply Forall_cons_iff in SQ as [Q1 SQ]. apply Forall_cons_iff in SQ as [Q2 _].
    apply Forall_cons_iff in SC as [C1 SC]. apply Forall_cons_iff in SC as [C2 _].
    apply Forall_cons_iff in SB as [B1 SB]. apply Forall_cons_iff in SB as [B2 SB]. apply Forall_cons_iff in SB as [B3 _].
    set (X := Rmax (Rabs (B2R (f64_f32 x0))) (Rabs (B2R (f64_f32 y0)))).
    assert (X1 : Rabs (B2R (f64_f32 x0)) <= X) by apply Rmax_l. assert (X2 : Rabs (B2R (f64_f32 y0)) <= X) by apply Rmax_r.
    pose proof (Rle_trans _ _ _ (Rabs_pos (B2R (f64_f32 x0))) X1) as X3.
    assert (Bx : X + INR (length l) * (H * V) + 1 <= B) by (unfold X, Rmax; destruct (Rle_dec _ _); lra).
    assert (V0' : 0 <= V) by (eapply Rle_trans; [apply Rabs_pos|exact V1]).
    assert (Q0' : 0 <= Q) by (eapply Rle_trans; [apply Rabs_pos|exact Q1]).
    assert (C0' : 0 <= C) by (eapply Rle_trans; [apply Rabs_pos|exact C1]).
    assert (HV : 0 <= H * V) by (apply Rmult_le_pos; assumption).
    assert (NHV : 0 <= INR (length l) * (H * V)) by (apply Rmult_le_pos; [apply pos_INR|exact HV]).
    assert (FE0 : 0 <= first_error H V).
    { unfold first_error. apply Rmult_le_pos; [exact H0|]. pose proof (bpow_ge_0 radix2 (-140)).
      assert (0 <= bpow radix2 (-20) * V) by (apply Rmult_le_pos; [apply bpow_ge_0|exact V0']). lra. }
    assert (FE2 : 0 <= fly_error B H V Q C (length l)).
    { unfold fly_error, step_error. pose proof (bpow_ge_0 radix2 (-48)). pose proof (bpow_ge_0 radix2 (-700)). pose proof (pos_INR (length l)).
      assert (0 <= H * (V + Q + C)) by (apply Rmult_le_pos; lra). assert (0 <= H * (1 + V)) by (apply Rmult_le_pos; lra).
      assert (0 <= bpow radix2 (-48) * (B + V + H * (V + Q + C) + 13)) by (apply Rmult_le_pos; lra).
      apply Rmult_le_pos; [|lra]. apply Rmult_le_pos; [lra|]. assert (0 <= H * (1 + V) * INR (length l)) by (apply Rmult_le_pos; lra). lra. }
    destruct l as [|[[h rate] acc] l].
    - exists (dubins2d_aircraft samples "Euler" v_min v_max hr_min hr_max acc_min acc_max x0 y0 hd0 v0), (map f64_f32 [x0; y0; hd0; v0]).
      split; [reflexivity|]. split; [reflexivity|]. cbn [map fly flies p px py phead pv].
      split; [apply Forall_map with (f := f64_f32) (l := [x0; y0; hd0; v0]); exact Fs|].
      rewrite !Rminus_eq_0, Rabs_R0. split; [lra|]. split; [lra|]. split; [|lra].
      exists 0%Z. rewrite Rmult_0_r, Rmult_0_l, Rplus_0_r, Rminus_eq_0, Rabs_R0. lra.
    - apply Forall_cons_iff in Fo as [(Wh & Hh & Fr & Fa) Fo]. cbn [fst snd] in Wh, Hh, Fr, Fa.
      destruct (new_step m w v_min v_max hr_min hr_max acc_min acc_max samples B H V Q C Am Sa F1 F2 Wc V1 V2 Q1 Q2 C1 C2 H0
        x0 y0 hd0 v0 h rate acc X (length ((h, rate, acc) :: l)) ltac:(cbn; lia) Fs X1 X2 ltac:(lra) V3 Bx B99 V99 ltac:(lra) Wh Hh Fr Fa) as [R1 I].
      destruct (fly_run lm w v_min v_max hr_min hr_max acc_min acc_max samples B H V Q C X (first_error H V) (length ((h, rate, acc) :: l)) Ac Sa F1 F2 Wc V1 V2 Q1 Q2 C1 C2 H0
        X3 Bx B99 V99 Er l 1%nat _ _ ltac:(cbn; lia) I Fo) as (e & R & I').
      destruct (fly_inv_flies lm v_min v_max hr_min hr_max acc_min acc_max samples B H V Q C X (first_error H V) (length ((h, rate, acc) :: l))
        V1 Q1 C1 H0 FE0 X3 Bx _ _ _ I') as (s & Es & Fl).
      exists e, s. split; [|split; [exact Es|exact Fl]].
      unfold fly_new2d, run_fresh. cbn [map fly_act fst snd]. rewrite R1. cbn [bind]. exact R.
  Qed.
End F.
