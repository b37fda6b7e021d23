(** One step of the two-dimensional aircraft in binary64 (C113). *)
From Coq Require Import String ZArith Reals Bool List Lra Lia.
From Flocq Require Import Core.Core IEEE754.BinarySingleNaN.
From Verif Require Import PyBase Num Arr BaseModel Dubins Spec SpecCwh NumOrdLemmas ArrLemmas BaseLemmas BaseLemmas2 BaseLemmas3 LimLemmas
  Float64 F64Wrap F64Bound F64Err SpecRound RoundCwh SpecLin LinRound WrapErr SpecFly.
Import List ListNotations.
Local Open Scope R_scope.

Lemma clipR_near lo hi a b : Rabs (clipR lo hi a - clipR lo hi b) <= Rabs (a - b).
Proof. unfold clipR, Rmin, Rmax. repeat destruct (Rle_dec _ _); unfold Rabs; repeat destruct (Rcase_abs _); lra. Qed.

Lemma ap_near k G D (a : f64) (b : f64) t t' g : ap k G D a t g -> is_finite b = true ->
  Rabs (B2R b - t') <= Rabs (B2R a - t) -> Rabs t' <= Rabs t -> ap k G D b t' g.
Proof. intros [F E Ht Hg] Fb H1 H2. split; [exact Fb|lra|lra|exact Hg]. Qed.

Section F.
  Variable lm : libm.
  Local Hint Extern 0 (Num f64) => exact (F64 lm) : typeclass_instances.

  Lemma nan_fin (y : f64) : is_finite y = true -> nisnan y = false.
  Proof. destruct y; try discriminate; reflexivity. Qed.
  Lemma zero64 : is_finite (n0 : f64) = true /\ B2R (n0 : f64) = 0.
  Proof. replace (n0 : f64) with (B754_zero false : f64) by (symmetry; apply n0_num). split; reflexivity. Qed.

  Lemma clip64_up (x hi : f64) : is_finite x = true -> is_finite hi = true ->
    is_finite (clip1 x nninf hi) = true /\ B2R (clip1 x nninf hi) = Rmin (B2R x) (B2R hi).
  Proof.
    intros Fx Fh. unfold clip1, np_max_clip, np_min_clip. rewrite (nan_fin x Fx).
    replace (nltb nninf x) with true by (destruct x; try discriminate; reflexivity). rewrite (nan_fin x Fx).
    change (nltb x hi) with (Bltb x hi). rewrite (Bltb_correct _ _ x hi Fx Fh).
    destruct (Rlt_bool_spec (B2R x) (B2R hi)); split; auto; [rewrite Rmin_left; lra|rewrite Rmin_right; lra].
  Qed.
  Lemma clip64_down (x lo : f64) : is_finite x = true -> is_finite lo = true ->
    is_finite (clip1 x lo npinf) = true /\ B2R (clip1 x lo npinf) = Rmax (B2R x) (B2R lo).
  Proof.
    intros Fx Fh. unfold clip1, np_max_clip, np_min_clip. rewrite (nan_fin x Fx).
    change (nltb lo x) with (Bltb lo x). rewrite (Bltb_correct _ _ lo x Fh Fx).
    assert (P : forall m : f64, is_finite m = true -> (if nisnan m then m else if nltb m npinf then m else npinf) = m).
    { intros m Fm. rewrite (nan_fin m Fm). replace (nltb m npinf) with true by (destruct m as [| | |[]]; try discriminate; reflexivity). reflexivity. }
    destruct (Rlt_bool_spec (B2R lo) (B2R x)); rewrite P by assumption; split; auto; [rewrite Rmax_left; lra|rewrite Rmax_right; lra].
  Qed.

  (** A derivative of a limited state element. *)
  Lemma stop64 k G D (lo hi s r : f64) t g : is_finite lo = true -> is_finite hi = true -> is_finite s = true -> ap k G D r t g ->
    ap k G D (limited_dot lo hi nninf npinf s r) (stopR (B2R lo) (B2R hi) (B2R s) t) g.
  Proof.
    intros Fl Fh Fs A. pose proof (ap_fin _ _ _ _ _ _ A) as Fr. unfold limited_dot, stopR.
    destruct (fin_free lm r Fr) as (-> & _). cbv zeta.
    change (nleb hi s) with (Bleb hi s). change (nleb s lo) with (Bleb s lo).
    rewrite (Bleb_correct _ _ hi s Fh Fs), (Bleb_correct _ _ s lo Fs Fl). destruct zero64 as [Z1 Z2].
    destruct (Rle_bool_spec (B2R hi) (B2R s)); destruct (Rle_dec (B2R hi) (B2R s)) as [Q|Q]; try lra.
    - destruct (clip64_up r n0 Fr Z1) as [F E]. eapply ap_near; [exact A|exact F| |].
      + rewrite E, Z2. unfold Rmin, Rabs. repeat destruct (Rle_dec _ _); repeat destruct (Rcase_abs _); lra.
      + unfold Rmin, Rabs. repeat destruct (Rle_dec _ _); repeat destruct (Rcase_abs _); lra.
    - destruct (Rle_bool_spec (B2R s) (B2R lo)); destruct (Rle_dec (B2R s) (B2R lo)) as [Q'|Q']; try lra; [|exact A].
      destruct (clip64_down r n0 Fr Z1) as [F E]. eapply ap_near; [exact A|exact F| |].
      + rewrite E, Z2. unfold Rmax, Rabs. repeat destruct (Rle_dec _ _); repeat destruct (Rcase_abs _); lra.
      + unfold Rmax, Rabs. repeat destruct (Rle_dec _ _); repeat destruct (Rcase_abs _); lra.
  Qed.
  Lemma stop_free (s r : f64) : is_finite s = true -> is_finite r = true -> limited_dot nninf npinf nninf npinf s r = r.
  Proof.
    intros Fs Fr. destruct (fin_free lm s Fs) as (_ & A & B). destruct (fin_free lm r Fr) as (C & _). unfold limited_dot.
    rewrite A, B, C. reflexivity.
  Qed.

  Lemma ap_trig (c : f64) t : is_finite c = true -> Rabs (B2R c - t) <= bpow radix2 (-52) -> Rabs t <= 1 -> ap 2 0 (-1075) c t 1.
  Proof.
    intros F E T. split; [exact F| |exact T|cbn; lra]. eapply Rle_trans; [exact E|].
    replace (eps 2) with (2 * u64 + u64 * u64) by (unfold eps; ring). unfold u64 at 1.
    replace (bpow radix2 (-52)) with (2 * bpow radix2 (-53)) by (change (-52)%Z with (-53 + 1)%Z; rewrite bpow2_S; ring).
    pose proof u64_pos. pose proof (bpow_gt_0 radix2 (-1075)). nra.
  Qed.

  (** Wrapping an approximate angle. *)
  Lemma ap_wrap k G D (s : f64) t g : ap k G D s t g -> (k <= 8)%nat -> (D <= -701)%Z ->
    is_finite (wrap1 n0 s) = true /\
    angle_near (bpow radix2 (-48) * (g + 8) + bpow radix2 (-700)) (B2R (wrap1 n0 s)) t.
  Proof.
    intros A K HD. pose proof (ap_fin _ _ _ _ _ _ A) as F. split; [apply (wrap64_range lm s F)|].
    destruct (wrap64_turn lm s F) as (z & Z). exists (- z)%Z. rewrite opp_IZR.
    pose proof (ap_err _ _ _ _ _ _ A) as E. pose proof (ap_t _ _ _ _ _ _ A) as Tg.
    set (W := B2R (wrap1 n0 s)) in *. set (x := B2R s) in *.
    replace (W - (t + 2 * - IZR z * PI)) with ((W - (x - 2 * IZR z * PI)) + (x - t)) by ring.
    eapply Rle_trans; [apply Rabs_triang|].
    assert (X : Rabs x <= Rabs (x - t) + Rabs t) by (replace x with ((x - t) + t) at 1 by ring; apply Rabs_triang).
    pose proof (eps_le k ltac:(lia)) as Q. assert (INR k <= 8) by (apply le_INR in K; replace (INR 8) with 8 in K by (simpl; lra); exact K).
    pose proof u64_pos as [U0 U1]. pose proof (Rabs_pos t).
    replace (bpow radix2 (-51)) with (4 * u64) in Z by (unfold u64; change (-51)%Z with (2 + -53)%Z; rewrite bpow_plus; reflexivity).
    replace (bpow radix2 (-48)) with (32 * u64) by (unfold u64; change (-48)%Z with (5 + -53)%Z; rewrite bpow_plus; reflexivity).
    assert (D2 : 2 * bpow radix2 D <= bpow radix2 (-700)).
    { rewrite <- bpow2_S. apply bpow_le. lia. }
    set (dd := bpow radix2 D) in *. set (u := u64) in *. assert (0 <= dd) by apply bpow_ge_0.
    assert (E2 : eps k * g <= 16 * u * g) by (apply Rmult_le_compat_r; [lra|]; nra).
    assert (E3 : u * Rabs x <= u * (16 * u * g + dd + g)) by (apply Rmult_le_compat_l; lra).
    assert (E4 : u * (16 * u * g) <= / 1000 * (u * g)).
    { replace (u * (16 * u * g)) with (16 * u * (u * g)) by ring. apply Rmult_le_compat_r; [apply Rmult_le_pos; lra|lra]. }
    assert (E5 : u * dd <= / 1000000 * dd) by (apply Rmult_le_compat_r; lra).
    assert (0 <= u * g) by (apply Rmult_le_pos; lra). lra.
  Qed.

  Ltac apx := lazymatch goal with
    | |- ap _ _ _ (nadd _ _) _ _ => eapply nadd_ap; [apx|apx|reflexivity]
    | |- ap _ _ _ (nmul _ _) _ _ => eapply nmul_ap; [apx|apx|reflexivity]
    | |- ap _ _ _ (nneg _) _ _ => eapply nneg_ap; apx
    | |- ap _ _ _ n0 _ _ => apply ap0
    | |- ap _ _ _ n1 _ _ => apply ap1
    | |- ap _ _ _ (limited_dot _ _ _ _ _ _) _ _ => eapply stop64; [eassumption|eassumption|eassumption|apx]
    | |- _ => eassumption
    end.

  Lemma f32_const : nf32 (nninf : f64) = nninf /\ nf32 (npinf : f64) = npinf /\ nf32 (nnan : f64) = nnan /\ nf32 (n0 : f64) = n0.
  Proof. repeat split; apply f64_eq; vm_compute; reflexivity. Qed.

  Lemma fly_euler (w : world f64) (e : entity f64) v_min v_max samples hr_min hr_max acc_min acc_max h x y hd v (hr acc : f64) :
    accurate lm -> e_dyn e = dubins2d_dyn v_min v_max samples "Euler" -> (samples <= 0)%Z ->
    e_cmin e = A1 [hr_min; acc_min] -> e_cmax e = A1 [hr_max; acc_max] ->
    is_finite (nf32 v_min) = true -> is_finite (nf32 v_max) = true ->
    Forall (within 100) [hr_min; hr_max; acc_min; acc_max] -> within 100 h -> Forall (within 100) [x; y; hd; v] ->
    Forall (fun f : f64 => is_finite f = true) [hr; acc] -> e_state e = A1 [x; y; hd; v] ->
    let o := entity_step w e h (AArr (A1 [hr; acc])) in
    let lo := B2R (nf32 v_min) in let hi := B2R (nf32 v_max) in
    let r := clipR (B2R hr_min) (B2R hr_max) (B2R hr) in
    let a := stopR lo hi (B2R v) (clipR (B2R acc_min) (B2R acc_max) (B2R acc)) in
    exists x' y' hd' v', o_res o = Ok tt /\ e_state (o_entity o) = A1 [x'; y'; hd'; v'] /\
      agrees x' (B2R x + B2R h * (B2R v * cos (B2R hd))) (Rabs (B2R x) + Rabs (B2R h) * Rabs (B2R v)) /\
      agrees y' (B2R y + B2R h * (B2R v * sin (B2R hd))) (Rabs (B2R y) + Rabs (B2R h) * Rabs (B2R v)) /\
      is_finite hd' = true /\ - pi64 <= B2R hd' <= pi64 /\
      angle_near (bpow radix2 (-48) * (Rabs (B2R hd) + Rabs (B2R h) * Rabs r + 8) + bpow radix2 (-700)) (B2R hd') (B2R hd + B2R h * r) /\
      agrees v' (clipR lo hi (B2R v + B2R h * a)) (Rabs (B2R v) + Rabs (B2R h) * Rabs (clipR (B2R acc_min) (B2R acc_max) (B2R acc))) /\
      (exists z, B2R v' = clipR lo hi z).
  Proof.
    intros Ac Ed Sa C1 C2 Fl Fh Wc Wh Ws Fu Es o lo hi r a.
    apply Forall_cons_iff in Wc as [Wc1 Wc]. apply Forall_cons_iff in Wc as [Wc2 Wc]. apply Forall_cons_iff in Wc as [Wc3 Wc].
    apply Forall_cons_iff in Wc as [Wc4 _].
    apply Forall_cons_iff in Ws as [Wx Ws]. apply Forall_cons_iff in Ws as [Wy Ws]. apply Forall_cons_iff in Ws as [Whd Ws].
    apply Forall_cons_iff in Ws as [Wv _].
    apply Forall_cons_iff in Fu as [Fhr Fu]. apply Forall_cons_iff in Fu as [Facc _].
    destruct (clip_within lm hr hr_min hr_max Fhr Wc1 Wc2) as [Wu1 Eu1].
    destruct (clip_within lm acc acc_min acc_max Facc Wc3 Wc4) as [Wu2 Eu2].
    set (u1 := clip1 hr hr_min hr_max) in *. set (u2 := clip1 acc acc_min acc_max) in *.
    destruct (Ac hd ltac:(exact (proj1 Whd))) as [[Fc Ec] [Fs Es']].
    pose proof (ap_trig (ncos hd) _ Fc Ec ltac:(apply Rabs_le; apply COS_bound)) as Acos.
    pose proof (ap_trig (nsin hd) _ Fs Es' ltac:(apply Rabs_le; apply SIN_bound)) as Asin.
    pose proof (ap_in x 100 Wx) as Ax. pose proof (ap_in y 100 Wy) as Ay. pose proof (ap_in hd 100 Whd) as Ahd. pose proof (ap_in v 100 Wv) as Av.
    pose proof (ap_in h 100 Wh) as Ah. pose proof (ap_in u1 100 Wu1) as Au1. pose proof (ap_in u2 100 Wu2) as Au2.
    pose proof (proj1 Wv) as Fv.
    pose (r1 := nadd (nmul v (ncos hd)) (nadd (nadd n0 (nmul n0 u1)) (nmul n0 u2))).
    pose (r2 := nadd (nmul v (nsin hd)) (nadd (nadd n0 (nmul n0 u1)) (nmul n0 u2))).
    pose (r3 := nadd n0 (nadd (nadd n0 (nmul n1 u1)) (nmul n0 u2))).
    pose (r4 := nadd n0 (nadd (nadd n0 (nmul n0 u1)) (nmul n1 u2))).
    pose (r4' := limited_dot (nf32 v_min) (nf32 v_max) nninf npinf v r4).
    assert (B1 : exists k G D t g, ap k G D (nadd x (nmul h r1)) t g /\ (k <= 8)%nat /\ (D <= -701)%Z /\ is_finite r1 = true /\
      t = B2R x + B2R h * (B2R v * cos (B2R hd)) /\ g = Rabs (B2R x) + Rabs (B2R h) * Rabs (B2R v)).
    { unfold r1. do 5 eexists. split; [apx|]. split; [cbn; lia|]. split; [cbn; lia|]. split; [eapply ap_fin; apx|]. split; ring. }
    assert (B2 : exists k G D t g, ap k G D (nadd y (nmul h r2)) t g /\ (k <= 8)%nat /\ (D <= -701)%Z /\ is_finite r2 = true /\
      t = B2R y + B2R h * (B2R v * sin (B2R hd)) /\ g = Rabs (B2R y) + Rabs (B2R h) * Rabs (B2R v)).
    { unfold r2. do 5 eexists. split; [apx|]. split; [cbn; lia|]. split; [cbn; lia|]. split; [eapply ap_fin; apx|]. split; ring. }
    assert (B3 : exists k G D t g, ap k G D (nadd hd (nmul h r3)) t g /\ (k <= 8)%nat /\ (D <= -701)%Z /\ is_finite r3 = true /\
      t = B2R hd + B2R h * r /\ g = Rabs (B2R hd) + Rabs (B2R h) * Rabs r).
    { unfold r3. do 5 eexists. split; [apx|]. split; [cbn; lia|]. split; [cbn; lia|]. split; [eapply ap_fin; apx|].
      unfold r. rewrite <- Eu1. split; ring. }
    assert (B4 : exists k G D t g, ap k G D (nadd v (nmul h r4')) t g /\ (k <= 8)%nat /\ (D <= -701)%Z /\ is_finite r4 = true /\
      t = B2R v + B2R h * a /\ g = Rabs (B2R v) + Rabs (B2R h) * Rabs (clipR (B2R acc_min) (B2R acc_max) (B2R acc))).
    { unfold r4', r4. do 5 eexists. split; [apx|]. split; [cbn; lia|]. split; [cbn; lia|]. split; [eapply ap_fin; apx|].
      unfold a, lo, hi. rewrite <- Eu2. split; [|ring]. do 3 f_equal. ring. }
    destruct B1 as (k1 & G1 & D1 & t1 & g1 & B1 & K1 & L1 & F1 & -> & ->).
    destruct B2 as (k2 & G2 & D2 & t2 & g2 & B2 & K2 & L2 & F2 & -> & ->).
    destruct B3 as (k3 & G3 & D3 & t3 & g3 & B3 & K3 & L3 & F3 & -> & ->).
    destruct B4 as (k4 & G4 & D4 & t4 & g4 & B4 & K4 & L4 & F4 & -> & ->).
    destruct f32_const as (I1 & I2 & I3 & I4).
    destruct (euler_list w e h [x; y; hd; v] [hr; acc] [r1; r2; r3; r4'] [nnan; nnan; n0; nnan]) as (R1 & _ & R3).
    all: try (rewrite Ed; try reflexivity; try exact Sa).
    all: try (exact Es || reflexivity || (rewrite C1; reflexivity) || (rewrite C2; reflexivity)).
    { rewrite C1, C2. cbn [map clip_list expand length]. fold u1 u2.
      erewrite csd_list with (r := [r1; r2; r3; r4]).
      2-7: reflexivity.
      cbn [expand lim_list map dubins2d_dyn d_min d_max d_sdmin d_sdmax length repeat no_min no_max]. rewrite I1, I2.
      rewrite (stop_free x r1), (stop_free y r2), (stop_free hd r3) by (assumption || apply Wx || apply Wy || apply Whd). reflexivity. }
    cbn [length] in R3. rewrite Ed in R3. cbn [dubins2d_dyn d_min d_max expand map clip_list zipw wrap_list] in R3.
    rewrite I1, I2 in R3.
    change (nisnan (nnan : f64)) with true in R3. replace (nisnan (n0 : f64)) with false in R3 by (symmetry; apply nan_fin, zero64).
    cbv iota in R3.
    rewrite (proj1 (fin_free lm _ (ap_fin _ _ _ _ _ _ B1))), (proj1 (fin_free lm _ (ap_fin _ _ _ _ _ _ B2))), (proj1 (fin_free lm _ (ap_fin _ _ _ _ _ _ B3))) in R3.
    destruct (clip64 lm _ _ _ (ap_fin _ _ _ _ _ _ B4) Fl Fh) as [Fv' Ev'].
    destruct (ap_wrap _ _ _ _ _ _ B3 K3 L3) as [Fw Nw].
    do 4 eexists. split; [exact R1|]. split; [exact R3|].
    split; [eapply ap_final; [exact B1|lia|lia|reflexivity|reflexivity]|].
    split; [eapply ap_final; [exact B2|lia|lia|reflexivity|reflexivity]|].
    split; [exact Fw|]. split; [apply (wrap64_range lm _ (ap_fin _ _ _ _ _ _ B3))|]. split; [exact Nw|].
    split; [|eexists; exact Ev'].
    destruct (ap_final _ _ _ _ _ _ _ _ B4 ltac:(lia) ltac:(lia) eq_refl eq_refl) as [_ Q].
    split; [exact Fv'|]. rewrite Ev'. eapply Rle_trans; [apply clipR_near|exact Q].
  Qed.
End F.
