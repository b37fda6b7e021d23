(** Thrust against power (C73) and air data against altitude (C74). *)
From Coq Require Import List ZArith Reals Lra Lia Bool.
From Flocq Require Import Core.Core.
From Coquelicot Require Import Coquelicot.
From Verif Require Import PyBase Num XReal AeroTables Aero SpecTables SpecAero
  AeroLemmas AeroLemmas2 AeroLemmas3 AeroProps AeroProps2.
Import List ListNotations.
Local Open Scope R_scope.
Local Hint Extern 0 (Num xr) => exact (XR Fin) : typeclass_instances.

Definition ordered (t t' : list (list Z)) : bool :=
  forallb (fun i => forallb (fun j =>
    (nth (Z.to_nat j) (nth (Z.to_nat i) t []) 0 <=? nth (Z.to_nat j) (nth (Z.to_nat i) t' []) 0)%Z)
    (zrange 0 5)) (zrange 0 4).

Lemma ordered_spec t t' i j : ordered t t' = true -> (0 <= i <= 4)%Z -> (0 <= j <= 5)%Z ->
  entry t 0 0 i j <= entry t' 0 0 i j.
Proof.
  intros H Hi Hj. unfold ordered in H. rewrite forallb_forall in H.
  specialize (H i (in_zrange _ _ _ Hi)). rewrite forallb_forall in H.
  specialize (H j (in_zrange _ _ _ Hj)). apply Z.leb_le in H.
  unfold entry. rewrite !Z.sub_0_r. apply IZR_le. exact H.
Qed.

Lemma on_cell_le t t' j s : IZR j <= s <= IZR (j + 1) -> t j <= t' j -> t (j + 1)%Z <= t' (j + 1)%Z ->
  on_cell t j s <= on_cell t' j s.
Proof.
  intros Hs H1 H2. unfold on_cell. rewrite plus_IZR in Hs.
  set (w := s - IZR j). assert (0 <= w <= 1) by (unfold w; lra).
  replace (t j + w * (t (j + 1)%Z - t j)) with ((1 - w) * t j + w * t (j + 1)%Z) by ring.
  replace (t' j + w * (t' (j + 1)%Z - t' j)) with ((1 - w) * t' j + w * t' (j + 1)%Z) by ring.
  apply Rplus_le_compat; apply Rmult_le_compat_l; lra.
Qed.

Lemma cell_exact hi s : 0 <= s <= IZR hi -> (0 < hi)%Z ->
  exists j, (0 <= j < hi)%Z /\ IZR j <= s <= IZR (j + 1).
Proof.
  intros Hs Hhi. destruct (cell_of_in 0 hi s Hhi) as [H1 [H2 H3]].
  exists (cell_of 0 hi s). split; [exact H1|]. split.
  - destruct H2 as [ -> |H2]; lra.
  - destruct H3 as [ -> |H3]; lra.
Qed.

Lemma part_le t t' alt mach : ordered t t' = true -> 0 <= alt <= 40000 -> 0 <= mach <= 1 ->
  thrust_part t alt mach <= thrust_part t' alt mach.
Proof.
  intros Ho Ha Hm. unfold thrust_part.
  destruct (cell_exact 4 (alt / 10000)) as [j [Hj Hj']]; [lra|lia|].
  destruct (cell_exact 5 (5 * mach)) as [m [Hm1 Hm']]; [lra|lia|].
  unfold interp2.
  assert (Hc : in_cell 0 5 j (alt / 10000)) by (split; [lia|split; right; lra]).
  assert (Hc' : in_cell 0 5 m (5 * mach)) by (split; [lia|split; right; lra]).
  rewrite <- !(on_cell_interp 0 5 _ (5 * mach) m Hc').
  apply on_cell_le; [exact Hm'| |];
    (rewrite <- !(on_cell_interp 0 5 _ (alt / 10000) j Hc); apply on_cell_le; [exact Hj'| |];
      apply ordered_spec; (exact Ho || lia)).
Qed.

Lemma thrust_mono p q alt mach : 0 <= alt <= 40000 -> 0 <= mach <= 1 -> p <= q ->
  exists u v, thrust (Fin p) (Fin alt) (Fin mach) = Ok (Fin u) /\
    thrust (Fin q) (Fin alt) (Fin mach) = Ok (Fin v) /\ u <= v.
Proof.
  intros Ha Hm Hpq. rewrite !thrust_total. do 2 eexists. split; [reflexivity|].
  split; [reflexivity|].
  assert (Eu : alt_used alt = alt) by (unfold alt_used; destruct (Rlt_dec alt 0); [lra|reflexivity]).
  rewrite Eu.
  assert (H1 := part_le idle_thrust military_thrust alt mach eq_refl Ha Hm).
  assert (H2 := part_le military_thrust maximum_thrust alt mach eq_refl Ha Hm).
  set (i := thrust_part idle_thrust alt mach) in *.
  set (m := thrust_part military_thrust alt mach) in *.
  set (x := thrust_part maximum_thrust alt mach) in *.
  unfold thrust_blend. destruct (Rlt_dec p 50), (Rlt_dec q 50); try lra; nra.
Qed.

Lemma thrust_not_mono : exists p q alt mach u v, 0 <= p < q /\ q <= 100 /\
  thrust (Fin p) (Fin alt) (Fin mach) = Ok (Fin u) /\
  thrust (Fin q) (Fin alt) (Fin mach) = Ok (Fin v) /\ v < u /\ alt = 50000 /\ mach = 0.
Proof.
  exists 0, 50, 50000, 0.
  rewrite !(thrust_fin _ 50000 0 4 0) by
    (unfold alt_used; (destruct (Rlt_dec 50000 0); [lra|]); split; [lia|]; cbn; split; right; lra).
  do 2 eexists. split; [lra|]. split; [lra|]. split; [reflexivity|]. split; [reflexivity|].
  split; [|split; reflexivity].
  unfold thrust_blend, thrust_on, on_cell2, on_cell, alt_used.
  destruct (Rlt_dec 50000 0); [lra|]. destruct (Rlt_dec 0 50); [|lra].
  destruct (Rlt_dec 50 50); [lra|]. entries. lra.
Qed.

(** * Air data *)
Definition mach_of (vt alt : R) : R := vt / sqrt (1.4 * 1716.3 * temperature alt).

Lemma temperature_jump vt : 0 < vt -> ~ continuous (mach_of vt) 35000.
Proof.
  intros Hv Hc.
  (* the value at 35000 ft and the limit from below differ *)
  set (m1 := vt / sqrt (1.4 * 1716.3 * 390)).
  set (m2 := vt / sqrt (1.4 * 1716.3 * 391)).
  assert (Hs : 0 < sqrt (1.4 * 1716.3 * 390) < sqrt (1.4 * 1716.3 * 391)).
  { split; [apply sqrt_lt_R0; lra|apply sqrt_lt_1; lra]. }
  assert (Hlt : m2 < m1).
  { unfold m1, m2. apply Rmult_lt_compat_l; [exact Hv|]. apply Rinv_lt_contravar; [nra|tauto]. }
  assert (Hb : forall alt, alt < 35000 -> mach_of vt alt < m2).
  { intros alt Ha. unfold mach_of, m2. apply Rmult_lt_compat_l; [exact Hv|].
    apply Rinv_lt_contravar.
    - apply Rmult_lt_0_compat; [lra|]. apply sqrt_lt_R0. pose proof (temperature_ge alt). lra.
    - apply sqrt_lt_1; unfold temperature; destruct (Rle_dec 35000 alt); lra. }
  assert (H35 : mach_of vt 35000 = m1).
  { unfold mach_of, m1, temperature. destruct (Rle_dec 35000 35000); [reflexivity|lra]. }
  apply continuity_pt_filterlim in Hc. destruct (Hc (m1 - m2)) as [d [Hd H]]; [lra|].
  specialize (H (35000 - d / 2)). unfold D_x, no_cond in H. cbn in H. unfold R_dist in H.
  rewrite H35 in H.
  assert (Hx : Rabs (mach_of vt (35000 - d / 2) - m1) < m1 - m2).
  { apply H. split; [split; [exact Logic.I|lra]|]. rewrite Rabs_left1; lra. }
  specialize (Hb (35000 - d / 2) ltac:(lra)). apply Rabs_def2 in Hx. lra.
Qed.

Lemma continuous_near (f g : R -> R) x : locally x (fun y => f y = g y) ->
  continuous g x -> continuous f x.
Proof.
  intros H Hg. apply (continuous_ext_loc f g x); [|exact Hg].
  revert H. apply filter_imp. intros y E. symmetry. exact E.
Qed.

Lemma temperature_continuous alt : alt <> 35000 -> continuous temperature alt.
Proof.
  intros Hne. destruct (Rtotal_order alt 35000) as [H|[H|H]]; [|contradiction|].
  - apply continuous_near with (g := fun a => 519 * (1 - 0.00000703 * a)).
    + exists (mkposreal (35000 - alt) ltac:(lra)). intros y Hy.
      assert (Hy' : Rabs (y - alt) < 35000 - alt) by exact Hy. apply Rabs_def2 in Hy'.
      unfold temperature. destruct (Rle_dec 35000 y); [lra|reflexivity].
    + apply (continuous_mult (K := R_AbsRing)); [apply continuous_const|].
      apply (continuous_minus (V := R_NormedModule)); [apply continuous_const|].
      apply (continuous_mult (K := R_AbsRing)); [apply continuous_const|apply continuous_id].
  - apply continuous_near with (g := fun _ => 390).
    + exists (mkposreal (alt - 35000) ltac:(lra)). intros y Hy.
      assert (Hy' : Rabs (y - alt) < alt - 35000) by exact Hy. apply Rabs_def2 in Hy'.
      unfold temperature. destruct (Rle_dec 35000 y); [reflexivity|lra].
    + apply continuous_const.
Qed.

Lemma mach_continuous vt alt : alt <> 35000 -> continuous (mach_of vt) alt.
Proof.
  intros Hne. unfold mach_of, Rdiv.
  apply (continuous_mult (K := R_AbsRing)); [apply continuous_const|].
  apply (continuous_comp (fun a => sqrt (1.4 * 1716.3 * temperature a)) Rinv).
  - apply (continuous_comp (fun a => 1.4 * 1716.3 * temperature a) sqrt).
    + apply (continuous_mult (K := R_AbsRing)); [apply continuous_const|].
      apply temperature_continuous. exact Hne.
    + apply (ex_derive_continuous (K := R_AbsRing) (V := R_NormedModule) sqrt). auto_derive.
      pose proof (temperature_ge alt). lra.
  - apply (ex_derive_continuous (K := R_AbsRing) (V := R_NormedModule) Rinv). auto_derive.
    apply Rgt_not_eq. apply sqrt_lt_R0.
    pose proof (temperature_ge alt). lra.
Qed.

Lemma density_continuous alt : alt < 142247 -> continuous density alt.
Proof.
  intros H. unfold density, Rpower.
  apply (ex_derive_continuous (K := R_AbsRing) (V := R_NormedModule)). auto_derive. lra.
Qed.

Lemma density_decreasing a b : a < b -> b < 142247 -> density b < density a.
Proof.
  intros H Hb. unfold density. apply Rmult_lt_compat_l; [lra|].
  unfold Rpower. apply exp_increasing. apply Rmult_lt_compat_l; [lra|].
  apply ln_increasing; lra.
Qed.

Lemma adc_mach_jump vt : 0 < vt -> forall g : R -> R,
  (forall alt, alt < 142247 -> fst (adc (Fin vt) (Fin alt)) = Fin (g alt)) -> ~ continuous g 35000.
Proof.
  intros Hv g Hg Hc. apply (temperature_jump vt Hv).
  apply continuous_near with (g := g); [|exact Hc].
  exists (mkposreal 1 ltac:(lra)). intros y Hy.
  assert (Hy' : Rabs (y - 35000) < 1) by exact Hy. apply Rabs_def2 in Hy'.
  assert (E : y < 142247) by lra. specialize (Hg y E). rewrite adc_fin in Hg by exact E.
  inversion Hg. reflexivity.
Qed.

Lemma adc_jump : exists alt, alt < 142247 /\ forall vt, 0 < vt -> forall g : R -> R,
  (forall alt, alt < 142247 -> fst (adc (Fin vt) (Fin alt)) = Fin (g alt)) -> ~ continuous g alt.
Proof. exists 35000. split; [lra|exact adc_mach_jump]. Qed.

Lemma adc_continuous vt : exists m q : R -> R,
  (forall alt, alt < 142247 -> adc (Fin vt) (Fin alt) = (Fin (m alt), Fin (q alt))) /\
  (forall alt, alt < 142247 -> alt <> 35000 -> continuous m alt) /\
  (forall alt, alt < 142247 -> continuous q alt).
Proof.
  exists (mach_of vt), (fun alt => 0.5 * density alt * vt * vt). split; [|split].
  - intros alt H. apply adc_fin. exact H.
  - intros alt _ H. apply mach_continuous. exact H.
  - intros alt H.
    apply (continuous_mult (K := R_AbsRing)); [|apply continuous_const].
    apply (continuous_mult (K := R_AbsRing)); [|apply continuous_const].
    apply (continuous_mult (K := R_AbsRing)); [apply continuous_const|].
    apply density_continuous. exact H.
Qed.

(** Flying higher at the same airspeed lowers the dynamic pressure. *)
Lemma adc_qbar_decreasing vt a b : 0 < vt -> a < b -> b < 142247 ->
  exists u v, snd (adc (Fin vt) (Fin a)) = Fin u /\ snd (adc (Fin vt) (Fin b)) = Fin v /\ v < u.
Proof.
  intros Hv H Hb. rewrite !adc_fin by lra. do 2 eexists. split; [reflexivity|].
  split; [reflexivity|]. pose proof (density_decreasing a b H Hb). cbn.
  assert (0 < vt * vt) by nra. nra.
Qed.
