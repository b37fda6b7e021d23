(** Properties C48-C55, C68, C73 and C74: aerodynamic tables, engine and air data of the F-16. *)
From Coq Require Import List ZArith Reals Lra Lia Bool.
From Flocq Require Import Core.Core IEEE754.BinarySingleNaN.
From Coquelicot Require Import Coquelicot.
From Verif Require Import PyBase Num XReal Float64 AeroTables Aero SpecTables SpecAero
  AeroLemmas AeroLemmas2 AeroLemmas3 AeroTotal AeroProps AeroProps2 AeroProps3.
Import List ListNotations.
Local Open Scope R_scope.
Local Hint Extern 0 (Num f64) => match goal with lm : libm |- _ => exact (F64 lm) end
  : typeclass_instances.
Local Hint Extern 0 (Num xr) => exact (XR Fin) : typeclass_instances.

(** * C48 The lookups are total *)

(** In binary64, for every float, including nan and the infinities: no lookup ever indexes
    outside its table. *)
Theorem C48_no_index_error :
  forall (lm : libm) (alpha beta el power alt mach : f64),
    cx alpha el <> Err IndexError /\ cm alpha el <> Err IndexError /\
    cz alpha beta el <> Err IndexError /\
    cl alpha beta <> Err IndexError /\ cn alpha beta <> Err IndexError /\
    dlda alpha beta <> Err IndexError /\ dldr alpha beta <> Err IndexError /\
    dnda alpha beta <> Err IndexError /\ dndr alpha beta <> Err IndexError /\
    dampp alpha <> Err IndexError /\ thrust power alt mach <> Err IndexError.
Proof. exact tables_no_index. Qed.
Print Assumptions C48_no_index_error.

(** For finite angles every lookup returns. *)
Theorem C48_finite_angles :
  forall (lm : libm) (alpha beta el : f64),
    BinarySingleNaN.is_finite alpha = true -> BinarySingleNaN.is_finite beta = true ->
    BinarySingleNaN.is_finite el = true ->
    is_ok (cx alpha el) && is_ok (cm alpha el) && is_ok (cz alpha beta el) &&
    is_ok (cl alpha beta) && is_ok (cn alpha beta) && is_ok (dlda alpha beta) &&
    is_ok (dldr alpha beta) && is_ok (dnda alpha beta) && is_ok (dndr alpha beta) &&
    is_ok (dampp alpha) = true.
Proof. exact tables_finite_ok. Qed.
Print Assumptions C48_finite_angles.

(** Thrust returns for every power (even nan) as long as five times the Mach number does
    not overflow. *)
Theorem C48_thrust :
  forall (lm : libm) (power alt mach : f64),
    BinarySingleNaN.is_finite alt = true ->
    BinarySingleNaN.is_finite (nmul (nZ 5) mach : f64) = true ->
    is_ok (thrust power alt mach) = true.
Proof. exact thrust_finite_ok. Qed.
Print Assumptions C48_thrust.

(** Far outside the table, on it, and with a nan. *)
Example C48_example : forall lm : libm,
  let x : f64 := nlit (-100000) 3 in
  (is_ok (cx x x) && is_ok (cl x x) && is_ok (thrust x x x) &&
   match cx (nnan : f64) x with Err ValueError => true | _ => false end &&
   match dampp (npinf : f64) with Err OverflowError => true | _ => false end)%bool = true.
Proof. intros lm. vm_compute. reflexivity. Qed.

(** * C49 The lookups interpolate their tables *)

(** [interpolates2 f da db lo hi lo' hi' t]: on every grid cell owning the point the value
    is the bilinear interpolation of the four corners; edge cells own everything beyond. *)
Theorem C49_bilinear :
  interpolates2 cx 5 12 (-2) 9 (-2) 2 (coeff tab_cx (-2) (-2)) /\
  interpolates2 cm 5 12 (-2) 9 (-2) 2 (coeff tab_cm (-2) (-2)) /\
  interpolates2 cl 5 5 (-2) 9 (-6) 6 (odd_coeff tab_cl (-2)) /\
  interpolates2 cn 5 5 (-2) 9 (-6) 6 (odd_coeff tab_cn (-2)) /\
  interpolates2 dlda 5 10 (-2) 9 (-3) 3 (coeff tab_dlda (-2) (-3)) /\
  interpolates2 dldr 5 10 (-2) 9 (-3) 3 (coeff tab_dldr (-2) (-3)) /\
  interpolates2 dnda 5 10 (-2) 9 (-3) 3 (coeff tab_dnda (-2) (-3)) /\
  interpolates2 dndr 5 10 (-2) 9 (-3) 3 (coeff tab_dndr (-2) (-3)).
Proof.
  exact (conj cx_interp (conj cm_interp (conj cl_interp (conj cn_interp (conj dlda_interp
    (conj dldr_interp (conj dnda_interp dndr_interp))))))).
Qed.
Print Assumptions C49_bilinear.

Theorem C49_cz :
  forall (a b e : R) (k : Z), in_cell (-2) 9 k (a / 5) ->
    cz (Fin a) (Fin b) (Fin e)
    = Ok (Fin (on_cell (coeff1 tab_cz (-2)) k (a / 5) * (1 - (b / 57.3) * (b / 57.3))
               - 0.19 * (e / 25))).
Proof. exact cz_fin. Qed.
Print Assumptions C49_cz.

Theorem C49_dampp :
  forall (a : R) (k : Z), in_cell (-2) 9 k (a / 5) ->
    dampp (Fin a)
    = Ok (map (fun i => Fin (on_cell (fun j => coeff tab_dampp (-2) 0 j i) k (a / 5)))
              [0; 1; 2; 3; 4; 5; 6; 7; 8]%Z).
Proof. exact dampp_fin. Qed.
Print Assumptions C49_dampp.

(** What interpolation means: exact at the grid points … *)
Theorem C49_grid_points :
  forall f da db lo hi lo' hi' t, da <> 0 -> db <> 0 -> (lo < hi)%Z -> (lo' < hi')%Z ->
    interpolates2 f da db lo hi lo' hi' t ->
    forall j m, (lo <= j <= hi)%Z -> (lo' <= m <= hi')%Z ->
      f (Fin (da * IZR j)) (Fin (db * IZR m)) = Ok (Fin (t j m)).
Proof. exact interpolates2_grid. Qed.
Print Assumptions C49_grid_points.

(** … and between the neighbouring grid values inside the table. *)
Theorem C49_between_neighbours :
  forall f da db lo hi lo' hi' t, interpolates2 f da db lo hi lo' hi' t ->
    forall a b j m bot top,
      (lo <= j < hi)%Z -> (lo' <= m < hi')%Z ->
      IZR j <= a / da <= IZR (j + 1) -> IZR m <= b / db <= IZR (m + 1) ->
      (forall j' m', (j' = j \/ j' = j + 1)%Z -> (m' = m \/ m' = m + 1)%Z -> bot <= t j' m' <= top) ->
      exists v, f (Fin a) (Fin b) = Ok (Fin v) /\ bot <= v <= top.
Proof. exact interpolates2_between. Qed.
Print Assumptions C49_between_neighbours.

(** The centre of a cell is the mean of its corners; beyond the table the edge cell's
    line goes on: at 50 degrees, 0.138 + (0.138 - 0.155). *)
Example C49_example :
  cx (Fin 2.5) (Fin 6) = Ok (Fin ((-0.021 - 0.039 - 0.004 - 0.025) / 4)) /\
  cx (Fin 50) (Fin 0) = Ok (Fin (0.138 + (0.138 - 0.155))) /\
  cl (Fin 10) (Fin (-15)) = Ok (Fin 0.039).
Proof.
  split; [|split].
  - rewrite (cx_interp 2.5 6 0%Z 0%Z) by (split; [lia|]; cbn; split; right; lra).
    do 2 apply f_equal. unfold on_cell2, on_cell. entries. lra.
  - rewrite (cx_interp 50 0 8%Z 0%Z) by (split; [lia|]; cbn; split; [right; lra|auto with real || (right; lra)]).
    do 2 apply f_equal. unfold on_cell2, on_cell. entries. lra.
  - rewrite (cl_interp 10 (-15) 2%Z (-3)%Z) by (split; [lia|]; cbn; split; right; lra).
    do 2 apply f_equal. unfold on_cell2, on_cell. entries. lra.
Qed.

(** * C50 The lookups are continuous *)

(** Jointly continuous real functions of their finite arguments, everywhere. *)
Theorem C50_lookups_continuous :
  continuous2 cx /\ continuous2 cm /\ continuous2 cl /\ continuous2 cn /\ continuous2 dlda /\
  continuous2 dldr /\ continuous2 dnda /\ continuous2 dndr /\ continuous3 cz.
Proof. exact tables_continuous. Qed.
Print Assumptions C50_lookups_continuous.

Theorem C50_dampp_continuous :
  exists g : nat -> R -> R,
    (forall a, dampp (Fin a) = Ok (map (fun i => Fin (g i a)) (seq 0 9))) /\
    forall i a, continuous (g i) a.
Proof. exact dampp_continuous. Qed.
Print Assumptions C50_dampp_continuous.

(** The claim has content: tgear has a jump (C53), and so has [sign]. *)
Example C50_example : ~ exists g : R -> R,
  (forall t, tgear (Fin t) = Fin (g t)) /\ forall t, continuous g t.
Proof. intros [g [H Hc]]. exact (tgear_not_cont g H (Hc _)). Qed.

(** * C51 Lateral tables are odd in sideslip *)

Theorem C51_cl_odd :
  forall a b : R, exists v, cl (Fin a) (Fin b) = Ok (Fin v) /\ cl (Fin a) (Fin (- b)) = Ok (Fin (- v)).
Proof. exact cl_odd. Qed.
Print Assumptions C51_cl_odd.

Theorem C51_cn_odd :
  forall a b : R, exists v, cn (Fin a) (Fin b) = Ok (Fin v) /\ cn (Fin a) (Fin (- b)) = Ok (Fin (- v)).
Proof. exact cn_odd. Qed.
Print Assumptions C51_cn_odd.

Theorem C51_zero_sideslip :
  (forall a : R, cl (Fin a) (Fin 0) = Ok (Fin 0)) /\ (forall a : R, cn (Fin a) (Fin 0) = Ok (Fin 0)).
Proof. exact (conj (odd_zero cl cl_odd) (odd_zero cn cn_odd)). Qed.
Print Assumptions C51_zero_sideslip.

Example C51_example :
  cn (Fin 0) (Fin 10) = Ok (Fin 0.042) /\ cn (Fin 0) (Fin (-10)) = Ok (Fin (-0.042)).
Proof.
  split.
  - rewrite (cn_interp 0 10 0%Z 2%Z) by (split; [lia|]; cbn; split; right; lra).
    do 2 apply f_equal. unfold on_cell2, on_cell. entries. lra.
  - rewrite (cn_interp 0 (-10) 0%Z (-2)%Z) by (split; [lia|]; cbn; split; right; lra).
    do 2 apply f_equal. unfold on_cell2, on_cell. entries. lra.
Qed.

(** * C52 Engine power lag *)

(** The rate has the sign of the command minus the power, and power started in [0, 100]
    stays there under Euler steps with 5 h <= 1 for every history of commands in [0, 100]. *)
Theorem C52_power_lag :
  exists g : R -> R -> R,
    (forall p c, pdot (Fin p) (Fin c) = Fin (g p c)) /\
    (forall p c, (p < c -> 0 < g p c) /\ (c < p -> g p c < 0) /\ (c = p -> g p c = 0)) /\
    (forall h p cmds, 0 <= h -> 5 * h <= 1 -> 0 <= p <= 100 ->
       Forall (fun c => 0 <= c <= 100) cmds -> 0 <= power_run g h p cmds <= 100).
Proof. exact pdot_props. Qed.
Print Assumptions C52_power_lag.

Theorem C52_rtau :
  exists g : R -> R,
    (forall d, rtau (Fin d) = Fin (g d)) /\ (forall d, 0.1 <= g d <= 1) /\
    (forall a b, a <= b -> g b <= g a) /\ (forall d, continuous g d).
Proof. exact rtau_props. Qed.
Print Assumptions C52_rtau.

(** Idle to full: slow at first (rtau 60 = 0.1), and fast from 50 on. *)
Example C52_example :
  pdot (Fin 0) (Fin 100) = Fin 6 /\ pdot (Fin 80) (Fin 100) = Fin 100 /\
  pdot (Fin 60) (Fin 10) = Fin (-100) /\ rtau (Fin 30) = Fin 0.82.
Proof.
  split; [|split; [|split]].
  1-3: rewrite pdot_fin; apply f_equal; unfold pdot_r, rtau_r;
    repeat (case Rle_bool_spec; intros); lra.
  rewrite rtau_fin. apply f_equal. unfold rtau_r. repeat (case Rle_bool_spec; intros); lra.
Qed.

(** * C53 Throttle gearing *)

(** Missing from C53: increasing and continuous at 0.77, which is false (below). *)
Theorem C53_range_partial :
  (forall t, 0 <= t <= 1 -> exists v, tgear (Fin t) = Fin v /\ 0 <= v <= 100) /\
  (forall y, 0 <= y <= 100 -> exists t, 0 <= t <= 1 /\ tgear (Fin t) = Fin y).
Proof. exact (conj tgear_range tgear_onto). Qed.
Print Assumptions C53_range_partial.

(** Increasing on each side of 0.77, and up to 0.0013 across it.
    Missing from C53: increasing across 0.77 without the allowance, which is false. *)
Theorem C53_increasing_partial :
  (forall a b, a < b -> (b <= 0.77 \/ 0.77 < a) ->
     exists u v, tgear (Fin a) = Fin u /\ tgear (Fin b) = Fin v /\ u < v) /\
  (forall a b, a < b ->
     exists u v, tgear (Fin a) = Fin u /\ tgear (Fin b) = Fin v /\ u < v + 0.0013).
Proof. exact (conj tgear_mono_parts tgear_mono_tol). Qed.
Print Assumptions C53_increasing_partial.

(** The two branches do not meet: 64.94 * 0.77 = 50.0038 but the second one starts at 50.0026,
    so opening the throttle a little there lowers the commanded power. *)
Theorem C53_increasing_refuted :
  exists a b u v, 0 <= a < b /\ b <= 1 /\
    tgear (Fin a) = Fin u /\ tgear (Fin b) = Fin v /\ v < u.
Proof. exact tgear_not_mono. Qed.
Print Assumptions C53_increasing_refuted.

Theorem C53_continuous_refuted :
  exists t, 0 <= t <= 1 /\
    forall g : R -> R, (forall t, tgear (Fin t) = Fin (g t)) -> ~ continuous g t.
Proof. exact tgear_jump. Qed.
Print Assumptions C53_continuous_refuted.

Example C53_example : tgear (Fin 0) = Fin 0 /\ tgear (Fin 1) = Fin 100 /\ tgear (Fin 0.5) = Fin 32.47.
Proof.
  rewrite !tgear_fin. destruct (Rle_dec 0 0.77), (Rle_dec 1 0.77), (Rle_dec 0.5 0.77); try lra.
  repeat split; apply f_equal; lra.
Qed.

(** * C54 Thrust *)

(** Idle, military and maximum thrust at power 0, 50 and 100, and affine between. *)
Theorem C54_thrust_lines :
  forall (alt mach : R) (j m : Z),
    in_cell 0 5 j (alt / 10000) -> in_cell 0 5 m (5 * mach) -> 0 <= alt ->
    let t p := thrust (Fin p) (Fin alt) (Fin mach) in
    let v tab := thrust_on tab j m (alt / 10000) (5 * mach) in
    t 0 = Ok (Fin (v idle_thrust)) /\ t 50 = Ok (Fin (v military_thrust)) /\
    t 100 = Ok (Fin (v maximum_thrust)) /\
    (forall w, 0 <= w <= 1 ->
       t (50 * w) = Ok (Fin ((1 - w) * v idle_thrust + w * v military_thrust)) /\
       t (50 + 50 * w) = Ok (Fin ((1 - w) * v military_thrust + w * v maximum_thrust))).
Proof. exact thrust_lines. Qed.
Print Assumptions C54_thrust_lines.

Theorem C54_continuous_in_power :
  forall a m : R, exists g : R -> R,
    (forall p, thrust (Fin p) (Fin a) (Fin m) = Ok (Fin (g p))) /\ forall p, continuous g p.
Proof. exact thrust_continuous_power. Qed.
Print Assumptions C54_continuous_in_power.

(** At and above sea level also jointly in power, altitude and Mach number. *)
Theorem C54_continuous :
  exists g : R * R * R -> R,
    (forall p a m, 0 <= a -> thrust (Fin p) (Fin a) (Fin m) = Ok (Fin (g (p, a, m)))) /\
    forall x, continuous g x.
Proof. exact thrust_continuous. Qed.
Print Assumptions C54_continuous.

Theorem C54_below_sea_level :
  forall p a m : R, a < 0 -> thrust (Fin p) (Fin a) (Fin m) = thrust (Fin p) (Fin 0.01) (Fin m).
Proof. exact thrust_below. Qed.
Print Assumptions C54_below_sea_level.

Example C54_example :
  thrust (Fin 75) (Fin 10000) (Fin 0.4) = Ok (Fin ((9312 + 16860) / 2)).
Proof.
  rewrite (thrust_fin 75 10000 0.4 1%Z 2%Z);
    [|unfold alt_used; destruct (Rlt_dec 10000 0); [lra|]; split; [lia|]; cbn; split; right; lra
     |split; [lia|]; cbn; split; right; lra].
  do 2 apply f_equal. unfold thrust_blend, thrust_on, on_cell2, on_cell, alt_used.
  destruct (Rlt_dec 75 50); [lra|]. destruct (Rlt_dec 10000 0); [lra|]. entries. lra.
Qed.

(** * C55 Air data *)

Theorem C55_air_data :
  forall vt alt : R, 0 < vt -> alt < 142247 ->
    exists mach qbar, adc (Fin vt) (Fin alt) = (Fin mach, Fin qbar) /\ 0 < mach /\ 0 < qbar /\
      mach * sqrt (1.4 * 1716.3 * temperature alt) = vt /\ qbar = / 2 * density alt * (vt * vt).
Proof. exact adc_positive. Qed.
Print Assumptions C55_air_data.

Theorem C55_temperature :
  forall alt : R, 390 <= temperature alt.
Proof. exact temperature_ge. Qed.
Print Assumptions C55_temperature.

(** The range is needed: above 142248 ft the density is nan. *)
Theorem C55_above_range :
  forall vt alt : R, 142248 <= alt -> snd (adc (Fin vt) (Fin alt)) = NaN.
Proof. exact adc_above. Qed.
Print Assumptions C55_above_range.

Example C55_example : adc (Fin 100) (Fin 0)
  = (Fin (100 / sqrt (1.4 * 1716.3 * 519)), Fin 11.885).
Proof.
  rewrite adc_fin by lra. unfold temperature, density. destruct (Rle_dec 35000 0); [lra|].
  replace (1 - 0.00000703 * 0) with 1 by ring. unfold Rpower. rewrite ln_1, Rmult_0_r, exp_0.
  f_equal; apply f_equal; [|lra]. do 2 apply f_equal. ring.
Qed.

(** * C68 fix and sign, in binary64 *)

Theorem C68_fix_truncates :
  forall (lm : libm) (x : f64), BinarySingleNaN.is_finite x = true -> fix_ x = Ok (Ztrunc (B2R x)).
Proof. exact f64_fix_spec. Qed.
Print Assumptions C68_fix_truncates.

(** Ztrunc is rounding toward zero. *)
Theorem C68_toward_zero :
  forall x : R, Rabs (IZR (Ztrunc x)) <= Rabs x < Rabs (IZR (Ztrunc x)) + 1 /\ 0 <= x * IZR (Ztrunc x).
Proof. exact trunc_toward_zero. Qed.
Print Assumptions C68_toward_zero.

Theorem C68_fix_raises :
  forall lm : libm, fix_ (B754_nan : f64) = Err ValueError /\
    forall s, fix_ (B754_infinity s : f64) = Err OverflowError.
Proof. exact f64_fix_nonfinite. Qed.
Print Assumptions C68_fix_raises.

(** sign of nan is 1. *)
Theorem C68_sign :
  forall (lm : libm) (x : f64), BinarySingleNaN.is_finite x = true ->
    (B2R x < 0 -> sign_ x = (-1)%Z) /\ (B2R x = 0 -> sign_ x = 0%Z) /\ (0 < B2R x -> sign_ x = 1%Z).
Proof. exact f64_sign_spec. Qed.
Print Assumptions C68_sign.

Theorem C68_sign_special :
  forall lm : libm, sign_ (B754_nan : f64) = 1%Z /\ sign_ (B754_infinity false : f64) = 1%Z /\
    sign_ (B754_infinity true : f64) = (-1)%Z.
Proof. exact f64_sign_special. Qed.
Print Assumptions C68_sign_special.

(** The neighbouring column: fix(1.1 * sign(d)) is the sign itself, despite rounding. *)
Theorem C68_neighbour :
  forall (lm : libm) (z : Z), (-1 <= z <= 1)%Z -> fix_ (nmul (nlit 11 10) (nZ z : f64)) = Ok z.
Proof. exact f64_fix_sign. Qed.
Print Assumptions C68_neighbour.

Example C68_example : forall lm : libm,
  fix_ (nlit (-27) 10 : f64) = Ok (-2)%Z /\ fix_ (nlit 27 10 : f64) = Ok 2%Z /\
  sign_ (nlit (-27) 10 : f64) = (-1)%Z.
Proof. intros lm. repeat split; vm_compute; reflexivity. Qed.

(** * C73 Thrust never falls as power rises *)

(** True up to 40000 ft for Mach 0 to 1.
    Missing: the other altitudes, where it is false. *)
Theorem C73_thrust_monotone_partial :
  forall p q alt mach : R, 0 <= alt <= 40000 -> 0 <= mach <= 1 -> p <= q ->
    exists u v, thrust (Fin p) (Fin alt) (Fin mach) = Ok (Fin u) /\
      thrust (Fin q) (Fin alt) (Fin mach) = Ok (Fin v) /\ u <= v.
Proof. exact thrust_mono. Qed.
Print Assumptions C73_thrust_monotone_partial.

(** False on the last line of the table: at 50000 ft and Mach 0 idle gives 1860 lb and
    military power 1400 lb. *)
Theorem C73_thrust_monotone_refuted :
  exists p q alt mach u v, 0 <= p < q /\ q <= 100 /\
    thrust (Fin p) (Fin alt) (Fin mach) = Ok (Fin u) /\
    thrust (Fin q) (Fin alt) (Fin mach) = Ok (Fin v) /\ v < u /\ alt = 50000 /\ mach = 0.
Proof. exact thrust_not_mono. Qed.
Print Assumptions C73_thrust_monotone_refuted.

Example C73_example :
  thrust (Fin 0) (Fin 50000) (Fin 0) = Ok (Fin 1860) /\
  thrust (Fin 50) (Fin 50000) (Fin 0) = Ok (Fin 1400).
Proof.
  split; (rewrite (thrust_fin _ 50000 0 4%Z 0%Z) by
    (unfold alt_used; (destruct (Rlt_dec 50000 0); [lra|]); split; [lia|]; cbn; split; right; lra));
  do 2 apply f_equal; unfold thrust_blend, thrust_on, on_cell2, on_cell, alt_used;
  destruct (Rlt_dec 50000 0); try lra; destruct (Rlt_dec 0 50); try lra; destruct (Rlt_dec 50 50);
  try lra; entries; lra.
Qed.

(** * C74 Air data vary continuously with altitude *)

(** Dynamic pressure does, and Mach number does except at 35000 ft.
    Missing: Mach number and temperature at 35000 ft, where they jump. *)
Theorem C74_continuous_partial :
  forall vt : R, exists m q : R -> R,
    (forall alt, alt < 142247 -> adc (Fin vt) (Fin alt) = (Fin (m alt), Fin (q alt))) /\
    (forall alt, alt < 142247 -> alt <> 35000 -> continuous m alt) /\
    (forall alt, alt < 142247 -> continuous q alt).
Proof. exact adc_continuous. Qed.
Print Assumptions C74_continuous_partial.

(** At 35000 ft the temperature drops from 391.3 to 390, so Mach number jumps. *)
Theorem C74_continuous_refuted :
  exists alt, alt < 142247 /\ forall vt, 0 < vt -> forall g : R -> R,
    (forall alt, alt < 142247 -> fst (adc (Fin vt) (Fin alt)) = Fin (g alt)) -> ~ continuous g alt.
Proof. exact adc_jump. Qed.
Print Assumptions C74_continuous_refuted.

(** Dynamic pressure falls with altitude. *)
Theorem C74_dynamic_pressure_falls :
  forall vt a b : R, 0 < vt -> a < b -> b < 142247 ->
    exists u v, snd (adc (Fin vt) (Fin a)) = Fin u /\ snd (adc (Fin vt) (Fin b)) = Fin v /\ v < u.
Proof. exact adc_qbar_decreasing. Qed.
Print Assumptions C74_dynamic_pressure_falls.

Example C74_example : temperature 35000 = 390 /\ 391.3 < temperature 34999 < 391.4.
Proof. unfold temperature. destruct (Rle_dec 35000 35000), (Rle_dec 35000 34999); lra. Qed.
