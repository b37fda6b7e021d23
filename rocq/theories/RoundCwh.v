(** Rounding error of one Euler step of the CWH spacecraft (C106). *)
From Coq Require Import String ZArith Reals Bool List Lra Lia.
From Flocq Require Import Core.Core IEEE754.BinarySingleNaN.
From Verif Require Import PyBase Num Arr BaseModel Cwh Spec SpecCwh NumOrdLemmas ArrLemmas BaseLemmas BaseLemmas2 BaseLemmas3 LimLemmas
  Float64 F64Wrap F64Bound F64Err SpecRound.
Import List ListNotations.
Local Open Scope R_scope.

Section G.
  Context {T : Type} {N : Num T}.
  Definition dot6 (a b c d e f x y z vx vy vz : T) : T :=
    nadd (nadd (nadd (nadd (nadd (nadd n0 (nmul a x)) (nmul b y)) (nmul c z)) (nmul d vx)) (nmul e vy)) (nmul f vz).
  Definition dot3 (a b c x y z : T) : T := nadd (nadd (nadd n0 (nmul a x)) (nmul b y)) (nmul c z).

  Lemma cwh_rows m n im samples method d t x y z vx vy vz a b c : pydiv n1 m = Ok im -> cwh_dyn m n samples method = Ok d ->
    d_raw d t (A1 [x; y; z; vx; vy; vz]) (A1 [a; b; c]) = Ok (A1
      [nadd (dot6 n0 n0 n0 n1 n0 n0 x y z vx vy vz) (dot3 n0 n0 n0 a b c);
       nadd (dot6 n0 n0 n0 n0 n1 n0 x y z vx vy vz) (dot3 n0 n0 n0 a b c);
       nadd (dot6 n0 n0 n0 n0 n0 n1 x y z vx vy vz) (dot3 n0 n0 n0 a b c);
       nadd (dot6 (nmul (nZ 3) (nmul n n)) n0 n0 n0 (nmul (nZ 2) n) n0 x y z vx vy vz) (dot3 im n0 n0 a b c);
       nadd (dot6 n0 n0 n0 (nmul (nZ (-2)) n) n0 n0 x y z vx vy vz) (dot3 n0 im n0 a b c);
       nadd (dot6 n0 n0 (nneg (nmul n n)) n0 n0 n0 x y z vx vy vz) (dot3 n0 n0 im a b c)]).
  Proof.
    intros Im E. unfold cwh_dyn, generate_cwh_matrices in E. rewrite Im in E. cbn in E. injection E as <-. reflexivity.
  Qed.

  Lemma cwh_shape m n samples method d : cwh_dyn m n samples method = Ok d ->
    d_min d = no_min /\ d_max d = no_max /\ d_sdmin d = no_min /\ d_sdmax d = no_max /\ d_wrap d = None /\ d_method d = method /\
    d_samples d = samples.
  Proof.
    intros E. unfold cwh_dyn, generate_cwh_matrices in E. destruct (pydiv n1 m); [|discriminate].
    cbn in E. injection E as <-. repeat split.
  Qed.
  Definition free (x : T) : Prop := clip1 x nninf npinf = x /\ nleb npinf x = false /\ nleb x nninf = false.

  Lemma lim_free s r : Forall free s -> Forall free r -> length r = length s ->
    lim_list (repeat nninf (length s)) (repeat npinf (length s)) (repeat nninf (length s)) (repeat npinf (length s)) s r = r.
  Proof.
    revert r. induction s as [|a s IH]; intros [|b r] Fs Fr L; try discriminate; [reflexivity|].
    cbn [length repeat lim_list]. inversion Fs as [|? ? (A1 & A2 & A3) Fs']; inversion Fr as [|? ? (B1 & B2 & B3) Fr']; subst.
    f_equal; [|apply IH; auto]. unfold limited_dot. rewrite B1, A2, A3. reflexivity.
  Qed.
  Lemma clip_free r : Forall free r -> clip_list r (repeat nninf (length r)) (repeat npinf (length r)) = r.
  Proof.
    induction 1 as [|a r (A1 & A2 & A3) Fr IH]; [reflexivity|]. cbn [length repeat clip_list]. rewrite A1, IH. reflexivity.
  Qed.

  Lemma clip_const (lo hi : T) l : clip_list l (repeat lo (length l)) (repeat hi (length l)) = map (fun x => clip1 x lo hi) l.
  Proof. induction l as [|a l IH]; [reflexivity|]. cbn [length repeat clip_list map]. f_equal. apply IH. Qed.

  Lemma cwh_euler_gen (w : world T) (e : entity T) m n samples h s l r :
    cwh_dyn m n samples "Euler" = Ok (e_dyn e) -> (samples <= 0)%Z -> e_cmin e = A0 (nZ (-1)) -> e_cmax e = A0 n1 ->
    e_state e = A1 s -> length r = length s ->
    d_raw (e_dyn e) n0 (A1 s) (A1 (map (fun x => clip1 x (nZ (-1)) n1) l)) = Ok (A1 r) ->
    Forall free s -> Forall free r -> Forall free (zipw nadd s (map (nmul h) r)) ->
    let o := entity_step w e h (AArr (A1 l)) in
    o_res o = Ok tt /\ e_state (o_entity o) = A1 (zipw nadd s (map (nmul h) r)).
  Proof.
    intros E Sa C1 C2 Es L Rw Fs Fr Fz o. destruct (cwh_shape _ _ _ _ _ E) as (D1 & D2 & D3 & D4 & D5 & D6 & D7).
    pose proof (clip_const (nZ (-1)) n1 l) as Cl.
    destruct (euler_list0 w e h s l r) as (R1 & _ & R3); auto.
    { rewrite D7. exact Sa. } { rewrite C1. exact I. } { rewrite C2. exact I. }
    { rewrite C1, C2. cbn [expand]. rewrite Cl, (csd_list _ _ _ _ r L); auto; rewrite ?D1, ?D2, ?D3, ?D4; try exact I.
      cbn [expand no_min no_max]. rewrite lim_free by assumption. reflexivity. }
    { rewrite D1. exact I. } { rewrite D2. exact I. }
    split; [exact R1|]. etransitivity; [exact R3|]. rewrite D1, D2. cbn [expand no_min no_max].
    assert (Lz : length (zipw nadd s (map (nmul h) r)) = length s) by (rewrite zipw_length; rewrite ?map_length; congruence).
    rewrite <- Lz, clip_free by assumption. reflexivity.
  Qed.
End G.

Lemma ap_add' k1 G1 D1 a t1 g1 k2 G2 D2 b t2 g2 : ap k1 G1 D1 a t1 g1 -> ap k2 G2 D2 b t2 g2 ->
  ((k1 <=? 100)%nat && (k2 <=? 100)%nat && (0 <=? G1) && (G1 <=? 900) && (0 <=? G2) && (G2 <=? 900) &&
   (-1075 <=? D1) && (D1 <=? 0) && (-1075 <=? D2) && (D2 <=? 0) = true)%Z%bool ->
  ap (S (Nat.max k1 k2)) (Z.max G1 G2 + 1) (Z.max D1 D2 + 3) (Bplus mode_NE a b) (t1 + t2) (g1 + g2).
Proof.
  intros A B C. repeat (apply andb_true_iff in C as [C ?]). apply Nat.leb_le in C.
  repeat match goal with H : (_ <=? _)%nat = true |- _ => apply Nat.leb_le in H | H : (_ <=? _)%Z = true |- _ => apply Z.leb_le in H end.
  apply ap_add; auto; lia.
Qed.
Lemma ap_mul' k1 G1 D1 a t1 g1 k2 G2 D2 b t2 g2 : ap k1 G1 D1 a t1 g1 -> ap k2 G2 D2 b t2 g2 ->
  ((k1 <=? 100)%nat && (k2 <=? 100)%nat && (0 <=? G1) && (0 <=? G2) && (G1 + G2 <=? 900) &&
   (-1075 <=? D1) && (D1 <=? 0) && (-1075 <=? D2) && (D2 <=? 0) = true)%Z%bool ->
  ap (S (k1 + k2)) (G1 + G2) (Z.max (D1 + G2) (D2 + G1) + 5) (Bmult mode_NE a b) (t1 * t2) (g1 * g2).
Proof.
  intros A B C. repeat (apply andb_true_iff in C as [C ?]). apply Nat.leb_le in C.
  repeat match goal with H : (_ <=? _)%nat = true |- _ => apply Nat.leb_le in H | H : (_ <=? _)%Z = true |- _ => apply Z.leb_le in H end.
  apply ap_mul; auto; lia.
Qed.
Lemma ap_opp k G D a t g : ap k G D a t g -> ap k G D (Bopp a) (- t) g.
Proof.
  intros [F E Ht Hg]. split; [rewrite is_finite_Bopp; exact F| |rewrite Rabs_Ropp; exact Ht|exact Hg].
  rewrite B2R_Bopp. replace (- B2R a - - t) with (- (B2R a - t)) by ring. rewrite Rabs_Ropp. exact E.
Qed.

(** Final form of the bound. *)
Lemma ap_final k G D a t g t' g' : ap k G D a t g -> (k <= 16)%nat -> (D <= -700)%Z -> t = t' -> g = g' -> agrees a t' g'.
Proof.
  intros [F E Ht _] Hk HD <- <-. split; [exact F|]. eapply Rle_trans; [exact E|].
  pose proof (eps_le k ltac:(lia)) as Q. assert (INR k <= 16) by (apply le_INR in Hk; replace (INR 16) with 16 in Hk by (simpl; lra); exact Hk).
  pose proof u64_pos. pose proof (Rabs_pos t).
  assert (eps k <= bpow radix2 (-48)).
  { eapply Rle_trans; [exact Q|]. apply (Rle_trans _ (32 * u64)); [nra|]. unfold u64.
    change (bpow radix2 (-48)) with (bpow radix2 (5 + -53)). rewrite (bpow_plus radix2 5). change (bpow radix2 5) with 32. lra. }
  apply Rplus_le_compat; [apply Rmult_le_compat_r; lra|apply bpow_le, HD].
Qed.

(** Constants. *)
Lemma B2R_of (x : f64) s m e : B2SF x = SpecFloat.S754_finite s m e -> B2R x = F2R (Float radix2 (cond_Zopp s (Zpos m)) e).
Proof. intros H. rewrite <- SF2R_B2SF, H. reflexivity. Qed.

Section F.
  Variable lm : libm.
  Local Hint Extern 0 (Num f64) => exact (F64 lm) : typeclass_instances.

  Lemma one64 : is_finite (n1 : f64) = true /\ B2R (n1 : f64) = 1.
  Proof.
    split; [vm_compute; reflexivity|]. rewrite (B2R_of _ false 4503599627370496 (-52)) by (vm_compute; reflexivity).
    unfold F2R. cbn. lra.
  Qed.
  Lemma mone64 : is_finite (nZ (-1) : f64) = true /\ B2R (nZ (-1) : f64) = -1.
  Proof.
    split; [vm_compute; reflexivity|]. rewrite (B2R_of _ true 4503599627370496 (-52)) by (vm_compute; reflexivity).
    unfold F2R. cbn. lra.
  Qed.
  Lemma two64 : is_finite (nZ 2 : f64) = true /\ B2R (nZ 2 : f64) = 2.
  Proof.
    split; [vm_compute; reflexivity|]. rewrite (B2R_of _ false 4503599627370496 (-51)) by (vm_compute; reflexivity).
    unfold F2R. cbn. lra.
  Qed.
  Lemma mtwo64 : is_finite (nZ (-2) : f64) = true /\ B2R (nZ (-2) : f64) = -2.
  Proof.
    split; [vm_compute; reflexivity|]. rewrite (B2R_of _ true 4503599627370496 (-51)) by (vm_compute; reflexivity).
    unfold F2R. cbn. lra.
  Qed.
  Lemma three64 : is_finite (nZ 3 : f64) = true /\ B2R (nZ 3 : f64) = 3.
  Proof.
    split; [vm_compute; reflexivity|]. rewrite (B2R_of _ false 6755399441055744 (-51)) by (vm_compute; reflexivity).
    unfold F2R. cbn. lra.
  Qed.
  Lemma ap_val (a : f64) r g : is_finite a = true /\ B2R a = r -> Rabs r = g -> g <= 4 -> ap 0 2 (-1075) a r g.
  Proof.
    intros [F <-] <- H. apply ap_in. split; [exact F|]. change (bpow radix2 2) with 4. exact H.
  Qed.
  Lemma ap0 : ap 0 0 (-1075) (n0 : f64) 0 0.
  Proof. replace (n0 : f64) with (B754_zero false : f64) by (symmetry; apply n0_num). apply ap_zero. Qed.
  Lemma ap1 : ap 0 2 (-1075) (n1 : f64) 1 1.
  Proof. apply ap_val; [apply one64| |lra]. apply Rabs_right; lra. Qed.
  Lemma ap2 : ap 0 2 (-1075) (nZ 2 : f64) 2 2.
  Proof. apply ap_val; [apply two64| |lra]. apply Rabs_right; lra. Qed.
  Lemma apm2 : ap 0 2 (-1075) (nZ (-2) : f64) (-2) 2.
  Proof. apply ap_val; [apply mtwo64| |lra]. rewrite Rabs_left; lra. Qed.
  Lemma ap3 : ap 0 2 (-1075) (nZ 3 : f64) 3 3.
  Proof. apply ap_val; [apply three64| |lra]. apply Rabs_right; lra. Qed.

  Lemma fin_free (x : f64) : is_finite x = true -> free x.
  Proof. destruct x as [s| | |s m e B]; try discriminate; intros _; repeat split; try (destruct s; reflexivity). Qed.

  Lemma clip64 (x lo hi : f64) : is_finite x = true -> is_finite lo = true -> is_finite hi = true ->
    is_finite (clip1 x lo hi) = true /\ B2R (clip1 x lo hi) = clipR (B2R lo) (B2R hi) (B2R x).
  Proof.
    intros Fx Fl Fh. unfold clip1, np_max_clip, np_min_clip, clipR.
    assert (NN : forall y : f64, is_finite y = true -> nisnan y = false) by (intros [] Q; try discriminate; reflexivity).
    rewrite (NN x Fx).
    assert (exists m : f64, (if nltb lo x then x else lo) = m /\ is_finite m = true /\ B2R m = Rmax (B2R x) (B2R lo)) as (m & -> & Fm & <-).
    { eexists. split; [reflexivity|]. change (nltb lo x) with (Bltb lo x). rewrite (Bltb_correct _ _ lo x Fl Fx).
      destruct (Rlt_bool_spec (B2R lo) (B2R x)); split; auto; [rewrite Rmax_left; lra|rewrite Rmax_right; lra]. }
    rewrite (NN m Fm). change (nltb m hi) with (Bltb m hi). rewrite (Bltb_correct _ _ m hi Fm Fh).
    destruct (Rlt_bool_spec (B2R m) (B2R hi)); split; auto; [rewrite Rmin_left; lra|rewrite Rmin_right; lra].
  Qed.

  Lemma inv64 (m : f64) : is_finite m = true -> bpow radix2 (-100) <= Rabs (B2R m) ->
    exists im, pydiv n1 m = Ok im /\ ap 1 100 (-1074) im (/ B2R m) (/ Rabs (B2R m)).
  Proof.
    intros F H. pose proof (bpow_gt_0 radix2 (-100)) as P0.
    assert (Nz : B2R m <> 0) by (intros E; rewrite E, Rabs_R0 in H; lra).
    exists (Bdiv mode_NE (n1 : f64) m). split.
    { unfold pydiv. change (neqb m n0) with (Beqb m (n0 : f64)). replace (n0 : f64) with (B754_zero false : f64) by (symmetry; apply n0_num).
      rewrite Beqb_correct by auto. cbn [B2R]. rewrite Req_bool_false by exact Nz. reflexivity. }
    assert (Iv : / Rabs (B2R m) <= bpow radix2 100).
    { replace (bpow radix2 100) with (/ bpow radix2 (-100)) by (rewrite <- bpow_opp; reflexivity). apply Rinv_le_contravar; auto. }
    destruct one64 as [F1 V1].
    pose proof (Bdiv_correct 53 1024 _ _ mode_NE (n1 : f64) m Nz) as Q. rewrite V1 in Q.
    assert (Ai : Rabs (1 / B2R m) <= bpow radix2 100).
    { unfold Rdiv. rewrite Rmult_1_l, Rabs_inv. exact Iv. }
    rewrite Rlt_bool_true in Q.
    2:{ eapply Rle_lt_trans; [apply (rnd_bounded 100); [lia|exact Ai]|apply bpow_lt_emax; lia]. }
    destruct Q as (Q1 & Q2 & _). split.
    - rewrite Q2. exact F1.
    - rewrite Q1. replace (/ B2R m) with (1 / B2R m) by (field; exact Nz).
      replace (/ Rabs (B2R m)) with (Rabs (1 / B2R m)) by (unfold Rdiv; rewrite Rmult_1_l; apply Rabs_inv).
      eapply Rle_trans; [apply (round_step _ 0 _ (Rabs (1 / B2R m)) 0)|].
      + lra.
      + rewrite Rminus_eq_0, Rabs_R0. unfold eps. simpl (_ ^ 0). lra.
      + lra.
      + apply Rplus_le_compat_l. unfold eta64. rewrite Rmult_0_r, Rplus_0_l. apply bpow_le. lia.
    - rewrite Rabs_inv. apply Rle_refl.
    - exact Iv.
  Qed.

  Definition nadd_ap := fun k1 G1 D1 (a : f64) t1 g1 k2 G2 D2 b t2 g2 =>
    ap_add' k1 G1 D1 a t1 g1 k2 G2 D2 b t2 g2 : ap k1 G1 D1 a t1 g1 -> ap k2 G2 D2 b t2 g2 -> _ -> ap _ _ _ (nadd a b) _ _.
  Definition nmul_ap := fun k1 G1 D1 (a : f64) t1 g1 k2 G2 D2 b t2 g2 =>
    ap_mul' k1 G1 D1 a t1 g1 k2 G2 D2 b t2 g2 : ap k1 G1 D1 a t1 g1 -> ap k2 G2 D2 b t2 g2 -> _ -> ap _ _ _ (nmul a b) _ _.
  Definition nneg_ap := fun k G D (a : f64) t g => ap_opp k G D a t g : _ -> ap _ _ _ (nneg a) _ _.

  Ltac apx := lazymatch goal with
    | |- ap _ _ _ (nadd _ _) _ _ => eapply nadd_ap; [apx|apx|reflexivity]
    | |- ap _ _ _ (nmul _ _) _ _ => eapply nmul_ap; [apx|apx|reflexivity]
    | |- ap _ _ _ (nneg _) _ _ => eapply nneg_ap; apx
    | |- ap _ _ _ n0 _ _ => apply ap0
    | |- ap _ _ _ n1 _ _ => apply ap1
    | |- ap _ _ _ (nZ 2) _ _ => apply ap2
    | |- ap _ _ _ (nZ 3) _ _ => apply ap3
    | |- ap _ _ _ (nZ (-2)) _ _ => apply apm2
    | |- _ => eassumption
    end.

  Lemma cwh_round (w : world f64) (e : entity f64) m n samples h x y z vx vy vz (fx fy fz : f64) :
    cwh_dyn m n samples "Euler" = Ok (e_dyn e) -> (samples <= 0)%Z -> e_cmin e = A0 (nZ (-1)) -> e_cmax e = A0 n1 ->
    is_finite m = true -> bpow radix2 (-100) <= Rabs (B2R m) -> within 50 n -> within 100 h ->
    Forall (within 100) [x; y; z; vx; vy; vz] -> Forall (fun f : f64 => is_finite f = true) [fx; fy; fz] ->
    e_state e = A1 [x; y; z; vx; vy; vz] ->
    let o := entity_step w e h (AArr (A1 [fx; fy; fz])) in
    exists x' y' z' vx' vy' vz', o_res o = Ok tt /\ e_state (o_entity o) = A1 [x'; y'; z'; vx'; vy'; vz'] /\
    cwh_agrees (B2R m) (B2R n) (B2R h) (map B2R [x; y; z; vx; vy; vz]) (map (fun f => clipR (-1) 1 (B2R f)) [fx; fy; fz])
      [x'; y'; z'; vx'; vy'; vz'].
  Proof.
    intros E Sa C1 C2 Fm Hm Wn Wh Ws Fu Es o.
    destruct (inv64 m Fm Hm) as (im & Im & Aim).
    pose proof (ap_in n 50 Wn) as An. pose proof (ap_in h 100 Wh) as Ah.
    inversion Ws as [|? ? Wx Ws1]; subst. inversion Ws1 as [|? ? Wy Ws2]; subst. inversion Ws2 as [|? ? Wz Ws3]; subst.
    inversion Ws3 as [|? ? Wvx Ws4]; subst. inversion Ws4 as [|? ? Wvy Ws5]; subst. inversion Ws5 as [|? ? Wvz _]; subst.
    inversion Fu as [|? ? Fx Fu1]; subst. inversion Fu1 as [|? ? Fy Fu2]; subst. inversion Fu2 as [|? ? Fz _]; subst.
    pose proof (ap_in x 100 Wx) as Ax. pose proof (ap_in y 100 Wy) as Ay. pose proof (ap_in z 100 Wz) as Az.
    pose proof (ap_in vx 100 Wvx) as Avx. pose proof (ap_in vy 100 Wvy) as Avy. pose proof (ap_in vz 100 Wvz) as Avz.
    assert (Cl : forall f : f64, is_finite f = true -> ap 0 2 (-1075) (clip1 f (nZ (-1)) n1) (clipR (-1) 1 (B2R f)) (Rabs (clipR (-1) 1 (B2R f)))).
    { intros f Ff. destruct mone64 as [M1 M2], one64 as [O1 O2]. destruct (clip64 f (nZ (-1)) n1 Ff M1 O1) as [Q1 Q2].
      rewrite M2, O2 in Q2. rewrite <- Q2. apply ap_in. split; [exact Q1|]. rewrite Q2. change (bpow radix2 2) with 4.
      unfold clipR, Rmin, Rmax. repeat destruct (Rle_dec _ _); apply Rabs_le; lra. }
    pose proof (Cl fx Fx) as Afx. pose proof (Cl fy Fy) as Afy. pose proof (Cl fz Fz) as Afz. clear Cl.
    set (a := clip1 fx (nZ (-1)) n1) in *. set (b := clip1 fy (nZ (-1)) n1) in *. set (c := clip1 fz (nZ (-1)) n1) in *.
    pose proof (cwh_rows m n im samples "Euler" (e_dyn e) n0 x y z vx vy vz a b c Im E) as Rw.
    edestruct (cwh_euler_gen w e m n samples h [x; y; z; vx; vy; vz] [fx; fy; fz]) as (R1 & R2).
    1-5: eassumption.
    2: exact Rw.
    1: reflexivity.
    - repeat (constructor; [apply fin_free; match goal with H : within _ ?q |- is_finite ?q = true => apply H end|]). constructor.
    - unfold dot6, dot3. repeat (constructor; [apply fin_free; eapply ap_fin; apx|]). constructor.
    - unfold dot6, dot3. cbn [map zipw]. repeat (constructor; [apply fin_free; eapply ap_fin; apx|]). constructor.
    - cbn [map zipw] in R2. do 6 eexists. split; [exact R1|]. split; [exact R2|]. unfold dot6, dot3, cwh_agrees. cbn [map].
      assert (N2 : B2R n ^ 2 = Rabs (B2R n) * Rabs (B2R n)).
      { rewrite <- Rabs_mult. rewrite Rabs_right by (apply Rle_ge; nra). ring. }
      assert (Fin6 : forall k G D (q : f64) t g t' g', ap k G D q t g -> ((k <=? 16)%nat && (D <=? -700)%Z)%bool = true -> t = t' -> g = g' -> agrees q t' g').
      { intros k G D q t g t' g' A B ? ?. apply andb_true_iff in B as [B1 B2]. apply Nat.leb_le in B1. apply Z.leb_le in B2.
        eapply ap_final; eauto. }
      split; [|split; [|split; [|split; [|split]]]].
      all: eapply Fin6; [apx|reflexivity|unfold Rdiv; ring|rewrite ?N2; unfold Rdiv; ring].
  Qed.

  Lemma cwh_round_run (w : world f64) m n samples x0 y0 z0 vx0 vy0 vz0 e0 acts e h x y z vx vy vz (fx fy fz : f64) :
    cwh_spacecraft m n samples "Euler" x0 y0 z0 vx0 vy0 vz0 = Ok e0 -> run w e0 acts = Ok e -> (samples <= 0)%Z ->
    is_finite m = true -> bpow radix2 (-100) <= Rabs (B2R m) -> within 50 n -> within 100 h ->
    Forall (within 100) [x; y; z; vx; vy; vz] -> Forall (fun f : f64 => is_finite f = true) [fx; fy; fz] ->
    e_state e = A1 [x; y; z; vx; vy; vz] ->
    let o := entity_step w e h (AArr (A1 [fx; fy; fz])) in
    exists s', o_res o = Ok tt /\ e_state (o_entity o) = A1 s' /\
    cwh_agrees (B2R m) (B2R n) (B2R h) (map B2R [x; y; z; vx; vy; vz]) (map (fun f => clipR (-1) 1 (B2R f)) [fx; fy; fz]) s'.
  Proof.
    intros E Rn Sa Fm Hm Wn Wh Ws Fu Es o. pose proof (run_config _ _ _ _ Rn) as (Ed & _ & E1 & E2 & _).
    unfold cwh_spacecraft in E. destruct (cwh_dyn m n samples "Euler") as [d|] eqn:Dd; [|discriminate].
    cbn [bind] in E. injection E as <-. cbn [mk_entity e_dyn e_cmin e_cmax] in Ed, E1, E2. rewrite <- Ed in Dd.
    destruct (cwh_round w e m n samples h x y z vx vy vz fx fy fz Dd Sa E1 E2 Fm Hm Wn Wh Ws Fu Es) as (a & b & c & u & v & r & R1 & R2 & R3).
    eexists. eauto.
  Qed.
End F.
