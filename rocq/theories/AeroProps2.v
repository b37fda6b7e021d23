(** fix and sign in binary64 (C68); thrust (C54). *)
From Coq Require Import List ZArith Reals Lra Lia Bool.
From Flocq Require Import Core.Core IEEE754.BinarySingleNaN.
From Coquelicot Require Import Coquelicot.
From Verif Require Import PyBase Num XReal Float64 F64Wrap AeroTables Aero SpecTables SpecAero
  AeroLemmas AeroLemmas2 AeroLemmas3 AeroTotal AeroProps.
Import List ListNotations.
Local Open Scope R_scope.

Section F.
  Variable lm : libm.
  Local Hint Extern 0 (Num f64) => exact (F64 lm) : typeclass_instances.

  Lemma f64_floorZ_spec (x : f64) : BinarySingleNaN.is_finite x = true ->
    f64_floorZ x = Ok (Zfloor (B2R x)).
  Proof.
    destruct x as [s|s| |s m e Hb]; try discriminate; intros _; cbn [f64_floorZ].
    - cbn. rewrite (Zfloor_IZR 0). reflexivity.
    - apply f_equal. cbn [B2R]. unfold F2R. cbn [Fnum Fexp].
      assert (Es : cond_Zopp s (Zpos m) = signed s m) by (destruct s; reflexivity).
      rewrite Es. destruct (Z.leb_spec 0 e) as [H|H].
      + rewrite <- (IZR_Zpower radix2) by exact H. rewrite <- mult_IZR.
        rewrite Zfloor_IZR. reflexivity.
      + replace e with (- (- e))%Z at 2 by lia. rewrite bpow_opp.
        rewrite <- (IZR_Zpower radix2) by lia.
        change (IZR (signed s m) * / IZR (radix2 ^ (- e))%Z)
          with (IZR (signed s m) / IZR (radix2 ^ (- e))%Z).
        rewrite Zfloor_div; [reflexivity|].
        apply Z.neq_sym. apply Z.lt_neq. apply (Z.pow_pos_nonneg 2); lia.
  Qed.

  Lemma f64_ceilZ_spec (x : f64) : BinarySingleNaN.is_finite x = true ->
    f64_ceilZ x = Ok (Zceil (B2R x)).
  Proof.
    intros H. unfold f64_ceilZ. rewrite f64_floorZ_spec by (rewrite is_finite_Bopp; exact H).
    rewrite B2R_Bopp. reflexivity.
  Qed.

  Lemma f64_zero : (n0 : f64) = B754_zero false.
  Proof. vm_compute. reflexivity. Qed.

  Lemma f64_fix_spec (x : f64) : BinarySingleNaN.is_finite x = true -> fix_ x = Ok (Ztrunc (B2R x)).
  Proof.
    intros H. unfold fix_. rewrite f64_zero. cbn [nltb F64 nfloorZ nceilZ].
    rewrite Bltb_correct by (reflexivity || exact H). cbn [B2R].
    case Rlt_bool_spec; intros L.
    - rewrite f64_floorZ_spec by exact H. rewrite Ztrunc_floor by lra. reflexivity.
    - rewrite f64_ceilZ_spec by exact H. rewrite Ztrunc_ceil by lra. reflexivity.
  Qed.

  Lemma f64_fix_nonfinite : fix_ (B754_nan : f64) = Err ValueError /\
    forall s, fix_ (B754_infinity s : f64) = Err OverflowError.
  Proof.
    split; [vm_compute; reflexivity|]. intros []; vm_compute; reflexivity.
  Qed.

  Lemma f64_sign_spec (x : f64) : BinarySingleNaN.is_finite x = true ->
    (B2R x < 0 -> sign_ x = (-1)%Z) /\ (B2R x = 0 -> sign_ x = 0%Z) /\ (0 < B2R x -> sign_ x = 1%Z).
  Proof.
    intros H. unfold sign_. rewrite f64_zero. cbn [nltb neqb F64].
    rewrite Bltb_correct by (reflexivity || exact H).
    rewrite Beqb_correct by (reflexivity || exact H). cbn [B2R].
    case Rlt_bool_spec; intros L; [repeat split; intros; lra || reflexivity|].
    case Req_bool_spec; intros L'; repeat split; intros; lra || reflexivity.
  Qed.

  Lemma f64_sign_special : sign_ (B754_nan : f64) = 1%Z /\ sign_ (B754_infinity false : f64) = 1%Z /\
    sign_ (B754_infinity true : f64) = (-1)%Z.
  Proof. repeat split; vm_compute; reflexivity. Qed.
End F.

Section X.
Local Hint Extern 0 (Num xr) => exact (XR Fin) : typeclass_instances.

Lemma rfix_trunc x : fix_ (Fin x) = Ok (Ztrunc x).
Proof.
  rewrite fix_fin. unfold rfix. case Rlt_bool_spec; intros L.
  - rewrite Ztrunc_floor by lra. reflexivity.
  - rewrite Ztrunc_ceil by lra. reflexivity.
Qed.

(** Between two grid lines of the table, away from its ends, the neighbour selected by
    fix and sign is the other line of the cell. *)
Lemma trunc_toward_zero x :
  Rabs (IZR (Ztrunc x)) <= Rabs x < Rabs (IZR (Ztrunc x)) + 1 /\ 0 <= x * IZR (Ztrunc x).
Proof.
  destruct (Rle_lt_dec 0 x) as [H|H].
  - rewrite Ztrunc_floor by exact H.
    assert (H1 := Zfloor_lb x). assert (H2 := Zfloor_ub x).
    assert (0 <= IZR (Zfloor x)) by (apply (IZR_le 0); apply Zfloor_lub; exact H).
    rewrite !Rabs_pos_eq by assumption. split; [lra|]. apply Rmult_le_pos; assumption.
  - rewrite Ztrunc_ceil by lra. assert (H1 := Zceil_ub x). assert (H2 := Zceil_lb x).
    assert (H3 : IZR (Zceil x) <= 0) by (apply (IZR_le _ 0); apply Zceil_glb; lra).
    rewrite !Rabs_left1 by lra. split; [lra|]. nra.
Qed.

(** * C54 *)
Lemma thrust_blend_continuous_power i m x p : continuous (fun p => thrust_blend p i m x) p.
Proof.
  apply continuous_ext with
    (f := fun p => i + (m - i) / 50 * p + ((x - m) - (m - i)) / 50 * Rmax 0 (p - 50)).
  - intros q. unfold thrust_blend, Rmax.
    destruct (Rle_dec 0 (q - 50)), (Rlt_dec q 50); try lra; field.
  - apply (continuous_plus (V := R_NormedModule)).
    + apply (continuous_plus (V := R_NormedModule)); [apply continuous_const|].
      apply (continuous_mult (K := R_AbsRing)); [apply continuous_const|apply continuous_id].
    + apply (continuous_mult (K := R_AbsRing)); [apply continuous_const|].
      apply continuous_Rmax0. apply (continuous_minus (V := R_NormedModule));
        [apply continuous_id|apply continuous_const].
Qed.

Definition thrust_part (tab : list (list Z)) (alt mach : R) : R :=
  interp2 0 5 0 5 (entry tab 0 0) (alt / 10000) (5 * mach).

Lemma thrust_total power alt mach :
  thrust (Fin power) (Fin alt) (Fin mach)
  = Ok (Fin (thrust_blend power (thrust_part idle_thrust (alt_used alt) mach)
        (thrust_part military_thrust (alt_used alt) mach)
        (thrust_part maximum_thrust (alt_used alt) mach))).
Proof.
  rewrite (thrust_fin power alt mach (cell_of 0 5 (alt_used alt / 10000)) (cell_of 0 5 (5 * mach)))
    by (apply cell_of_in; lia).
  reflexivity.
Qed.

Lemma thrust_part_continuous tab (p : R * R) :
  continuous (fun p => thrust_part tab (fst p) (snd p)) p.
Proof.
  unfold thrust_part. apply interp2_continuous; try lia.
  - apply continuous_div_const. apply continuous_fst.
  - apply (continuous_mult (K := R_AbsRing)); [apply continuous_const|apply continuous_snd].
Qed.

(** The blend as a continuous function of everything. *)
Lemma thrust_blend_continuous (U : UniformSpace) (P I M X : U -> R) (u : U) :
  continuous P u -> continuous I u -> continuous M u -> continuous X u ->
  continuous (fun u => thrust_blend (P u) (I u) (M u) (X u)) u.
Proof.
  intros HP HI HM HX.
  apply continuous_ext with
    (f := fun u => I u + (M u - I u) * (P u / 50)
                   + ((X u - M u) - (M u - I u)) * (Rmax 0 (P u - 50) / 50)).
  - intros q. unfold thrust_blend, Rmax.
    destruct (Rle_dec 0 (P q - 50)), (Rlt_dec (P q) 50); try lra; field.
  - apply (continuous_plus (V := R_NormedModule)).
    + apply (continuous_plus (V := R_NormedModule)); [assumption|].
      apply (continuous_mult (K := R_AbsRing)); [|apply continuous_div_const; assumption].
      apply (continuous_minus (V := R_NormedModule)); assumption.
    + apply (continuous_mult (K := R_AbsRing)).
      * apply (continuous_minus (V := R_NormedModule));
          apply (continuous_minus (V := R_NormedModule)); assumption.
      * apply continuous_div_const. apply continuous_Rmax0.
        apply (continuous_minus (V := R_NormedModule)); [assumption|apply continuous_const].
Qed.

(** At and above sea level thrust is one continuous function of power, altitude and Mach. *)
Lemma thrust_continuous : exists g : R * R * R -> R,
  (forall p a m, 0 <= a -> thrust (Fin p) (Fin a) (Fin m) = Ok (Fin (g (p, a, m)))) /\
  forall x, continuous g x.
Proof.
  exists (fun x => thrust_blend (fst (fst x)) (thrust_part idle_thrust (snd (fst x)) (snd x))
       (thrust_part military_thrust (snd (fst x)) (snd x))
       (thrust_part maximum_thrust (snd (fst x)) (snd x))).
  split.
  - intros p a m Ha. rewrite thrust_total. unfold alt_used.
    destruct (Rlt_dec a 0); [lra|]. reflexivity.
  - intros x.
    assert (Hff : continuous (fun p : R * R * R => fst (fst p)) x).
    { apply (continuous_comp fst fst); apply continuous_fst. }
    assert (Hsf : continuous (fun p : R * R * R => snd (fst p)) x).
    { apply (continuous_comp fst snd); [apply continuous_fst|apply continuous_snd]. }
    assert (Hp : forall tab, continuous (fun x : R * R * R => thrust_part tab (snd (fst x)) (snd x)) x).
    { intros tab. unfold thrust_part. apply interp2_continuous; try lia.
      - apply continuous_div_const. exact Hsf.
      - apply (continuous_mult (K := R_AbsRing)); [apply continuous_const|apply continuous_snd]. }
    apply thrust_blend_continuous; auto.
Qed.

(** In power alone, at every altitude. *)
Lemma thrust_continuous_power a m : exists g : R -> R,
  (forall p, thrust (Fin p) (Fin a) (Fin m) = Ok (Fin (g p))) /\ forall p, continuous g p.
Proof.
  eexists. split; [intros p; apply thrust_total|]. intros p. apply thrust_blend_continuous_power.
Qed.

Lemma thrust_below p a m : a < 0 ->
  thrust (Fin p) (Fin a) (Fin m) = thrust (Fin p) (Fin 0.01) (Fin m).
Proof.
  intros H. rewrite !thrust_total. unfold alt_used.
  destruct (Rlt_dec a 0); [|lra]. destruct (Rlt_dec 0.01 0); [lra|]. reflexivity.
Qed.

Lemma thrust_lines alt mach j m :
  in_cell 0 5 j (alt / 10000) -> in_cell 0 5 m (5 * mach) -> 0 <= alt ->
  let t p := thrust (Fin p) (Fin alt) (Fin mach) in
  let v tab := thrust_on tab j m (alt / 10000) (5 * mach) in
  t 0 = Ok (Fin (v idle_thrust)) /\ t 50 = Ok (Fin (v military_thrust)) /\
  t 100 = Ok (Fin (v maximum_thrust)) /\
  (forall w, 0 <= w <= 1 ->
     t (50 * w) = Ok (Fin ((1 - w) * v idle_thrust + w * v military_thrust)) /\
     t (50 + 50 * w) = Ok (Fin ((1 - w) * v military_thrust + w * v maximum_thrust))).
Proof.
  intros Hj Hm Ha t v.
  assert (E : forall p, t p = Ok (Fin (thrust_blend p (v idle_thrust) (v military_thrust) (v maximum_thrust)))).
  { intros p. unfold t, v.
    assert (Eu : alt_used alt = alt) by (unfold alt_used; destruct (Rlt_dec alt 0); [lra|reflexivity]).
    rewrite (thrust_fin p alt mach j m) by (rewrite ?Eu; assumption). rewrite Eu. reflexivity. }
  rewrite !E. unfold thrust_blend.
  split; [|split; [|split]].
  - destruct (Rlt_dec 0 50); [|lra]. do 2 f_equal. field.
  - destruct (Rlt_dec 50 50); [lra|]. do 2 f_equal. field.
  - destruct (Rlt_dec 100 50); [lra|]. do 2 f_equal. field.
  - intros w Hw. rewrite !E. unfold thrust_blend. split.
    + destruct (Rlt_dec (50 * w) 50); do 2 f_equal; [field|].
      assert (w = 1) by lra. subst w. field.
    + destruct (Rlt_dec (50 + 50 * w) 50); [lra|]. do 2 f_equal. field.
Qed.

(** More power never gives less thrust wherever the three tables are ordered. *)

(** * C53 partial *)
Lemma tgear_mono_parts a b : a < b -> (b <= 0.77 \/ 0.77 < a) ->
  exists u v, tgear (Fin a) = Fin u /\ tgear (Fin b) = Fin v /\ u < v.
Proof.
  intros H Hc. rewrite !tgear_fin. do 2 eexists. split; [reflexivity|]. split; [reflexivity|].
  destruct (Rle_dec a 0.77), (Rle_dec b 0.77); lra.
Qed.

(** Across the break the loss is less than 0.0013 percent of power. *)
Lemma tgear_mono_tol a b : a < b ->
  exists u v, tgear (Fin a) = Fin u /\ tgear (Fin b) = Fin v /\ u < v + 0.0013.
Proof.
  intros H. rewrite !tgear_fin. do 2 eexists. split; [reflexivity|]. split; [reflexivity|].
  destruct (Rle_dec a 0.77), (Rle_dec b 0.77); lra.
Qed.

Lemma tgear_not_mono : exists a b u v,
  0 <= a < b /\ b <= 1 /\ tgear (Fin a) = Fin u /\ tgear (Fin b) = Fin v /\ v < u.
Proof.
  exists 0.77, 0.770001. do 2 eexists. rewrite !tgear_fin.
  split; [lra|]. split; [lra|]. split; [reflexivity|]. split; [reflexivity|].
  destruct (Rle_dec 0.77 0.77), (Rle_dec 0.770001 0.77); lra.
Qed.

Lemma tgear_not_cont (g : R -> R) : (forall t, tgear (Fin t) = Fin (g t)) -> ~ continuous g 0.77.
Proof.
  intros Hg Hc.
  assert (Eg : forall t, g t = if Rle_dec t 0.77 then 64.94 * t else 217.38 * t - 117.38).
  { intros t. specialize (Hg t). rewrite tgear_fin in Hg. inversion Hg. reflexivity. }
  apply continuity_pt_filterlim in Hc. destruct (Hc 0.0001) as [d [Hd H]]; [lra|].
  set (t := 0.77 + Rmin (d / 2) 0.0000001).
  assert (Hm : 0 < Rmin (d / 2) 0.0000001 <= 0.0000001 /\ Rmin (d / 2) 0.0000001 < d).
  { unfold Rmin. destruct (Rle_dec (d / 2) 0.0000001); lra. }
  specialize (H t). unfold dist, R_met, R_dist, D_x, no_cond in H. cbn in H. unfold R_dist in H.
  assert (Hx : Rabs (g t - g 0.77) < 0.0001).
  { apply H. split; [split; [exact I|]|].
    - unfold t. lra.
    - unfold t. rewrite Rabs_pos_eq; lra. }
  rewrite !Eg in Hx. unfold t in Hx.
  destruct (Rle_dec (0.77 + Rmin (d / 2) 0.0000001) 0.77); [lra|].
  destruct (Rle_dec 0.77 0.77); [|lra].
  apply Rabs_def2 in Hx. lra.
Qed.

Lemma tgear_jump : exists t, 0 <= t <= 1 /\
  forall g : R -> R, (forall t, tgear (Fin t) = Fin (g t)) -> ~ continuous g t.
Proof. exists 0.77. split; [lra|exact tgear_not_cont]. Qed.

(** * C52 continuity of rtau, as a statement about the code *)
Lemma rtau_props : exists g : R -> R,
  (forall d, rtau (Fin d) = Fin (g d)) /\ (forall d, 0.1 <= g d <= 1) /\
  (forall a b, a <= b -> g b <= g a) /\ (forall d, continuous g d).
Proof.
  exists rtau_r. split; [exact rtau_fin|]. split; [exact rtau_r_range|].
  split; [exact rtau_r_mono|exact rtau_r_continuous].
Qed.

Lemma pdot_props : exists g : R -> R -> R,
  (forall p c, pdot (Fin p) (Fin c) = Fin (g p c)) /\
  (forall p c, (p < c -> 0 < g p c) /\ (c < p -> g p c < 0) /\ (c = p -> g p c = 0)) /\
  (forall h p cmds, 0 <= h -> 5 * h <= 1 -> 0 <= p <= 100 ->
     Forall (fun c => 0 <= c <= 100) cmds -> 0 <= power_run g h p cmds <= 100).
Proof.
  exists pdot_r. split; [exact pdot_fin|]. split; [exact pdot_r_sign|].
  intros. apply power_run_range; assumption.
Qed.
End X.
