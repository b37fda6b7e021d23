(** Properties of the aerodynamic and engine functions (C48-C55, C68). *)
From Coq Require Import List ZArith Reals Lra Lia Bool.
From Flocq Require Import Core.Core IEEE754.BinarySingleNaN.
From Coquelicot Require Import Coquelicot.
From Verif Require Import PyBase Num XReal Float64 F64Wrap AeroTables Aero SpecTables SpecAero
  AeroLemmas AeroLemmas2 AeroLemmas3 AeroTotal.
Import List ListNotations.
Local Open Scope R_scope.

(** Evaluate table entries of the specification. *)
Ltac entries :=
  unfold odd_coeff, coeff; cbn [Z.ltb Z.compare Z.opp Z.add Pos.add Pos.succ Z.pos_sub Pos.pred_double];
  repeat match goal with |- context [entry ?t ?a ?b ?i ?j] =>
    let v := eval vm_compute in (nth (Z.to_nat (j - b)) (nth (Z.to_nat (i - a)) t []) 0%Z) in
    change (entry t a b i j) with (IZR v) end.

(** * C48 *)
Section Total.
  Variable lm : libm.
  Local Hint Extern 0 (Num f64) => exact (F64 lm) : typeclass_instances.

  Lemma val_or_noindex {A} (r : res A) (f : res Z) : val_or r f ->
    (forall e, f = Err e -> e <> IndexError) -> r <> Err IndexError.
  Proof.
    unfold val_or. intros H He. destruct f; [destruct H as [v ->]; discriminate|].
    rewrite H. intros E. inversion E. apply (He e); [reflexivity|assumption].
  Qed.

  Lemma fix_noindex (x : f64) e : fix_ x = Err e -> e <> IndexError.
  Proof. intros H. destruct (f64_fix_err lm x e H) as [ -> | -> ]; discriminate. Qed.
  Lemma both_noindex (x y : f64) e : both (fix_ x) (fix_ y) = Err e -> e <> IndexError.
  Proof.
    unfold both. destruct (fix_ x) eqn:E; [apply fix_noindex|].
    intros H. inversion H; subst. apply (fix_noindex x). exact E.
  Qed.

  Lemma val_or_ok {A} (r : res A) (f : res Z) z : val_or r f -> f = Ok z -> is_ok r = true.
  Proof. intros H ->. destruct H as [v ->]. reflexivity. Qed.

  Lemma both_ok (x y : f64) : BinarySingleNaN.is_finite x = true -> BinarySingleNaN.is_finite y = true ->
    exists z, both (fix_ x) (fix_ y) = Ok z.
  Proof.
    intros Hx Hy. destruct (f64_fix_finite lm x Hx) as [a ->].
    destruct (f64_fix_finite lm y Hy) as [b ->]. eexists. reflexivity.
  Qed.

  Lemma tables_no_index (alpha beta el power alt mach : f64) :
    cx alpha el <> Err IndexError /\ cm alpha el <> Err IndexError /\
    cz alpha beta el <> Err IndexError /\
    cl alpha beta <> Err IndexError /\ cn alpha beta <> Err IndexError /\
    dlda alpha beta <> Err IndexError /\ dldr alpha beta <> Err IndexError /\
    dnda alpha beta <> Err IndexError /\ dndr alpha beta <> Err IndexError /\
    dampp alpha <> Err IndexError /\ thrust power alt mach <> Err IndexError.
  Proof.
    assert (H := f64_fix_sign lm).
    repeat match goal with |- _ /\ _ => split end.
    1, 2: eapply val_or_noindex; [apply (lookup_el_ok H); reflexivity|apply both_noindex].
    1: eapply val_or_noindex; [apply (cz_ok H)|apply fix_noindex].
    1, 2: eapply val_or_noindex;
      [apply (lookup_odd_ok H); [reflexivity|apply beta_arg_nonneg]|apply both_noindex].
    1-4: eapply val_or_noindex; [apply (lookup_beta_ok H); reflexivity|apply both_noindex].
    1: eapply val_or_noindex; [apply (dampp_ok H)|apply fix_noindex].
    eapply val_or_noindex; [apply thrust_ok; apply alt_arg_nonneg|apply both_noindex].
  Qed.

  Lemma tables_finite_ok (alpha beta el : f64) :
    BinarySingleNaN.is_finite alpha = true -> BinarySingleNaN.is_finite beta = true -> BinarySingleNaN.is_finite el = true ->
    is_ok (cx alpha el) && is_ok (cm alpha el) && is_ok (cz alpha beta el) &&
    is_ok (cl alpha beta) && is_ok (cn alpha beta) && is_ok (dlda alpha beta) &&
    is_ok (dldr alpha beta) && is_ok (dnda alpha beta) && is_ok (dndr alpha beta) &&
    is_ok (dampp alpha) = true.
  Proof.
    intros Fa Fb Fe. assert (H := f64_fix_sign lm).
    assert (Fa' := f64_tenth lm alpha Fa). assert (Fe' := f64_div12 lm el Fe).
    assert (Fb' := f64_tenth1 lm beta Fb).
    assert (Fb'' : BinarySingleNaN.is_finite (nmul (nlit 2 10) (nabs beta)) = true).
    { apply f64_tenth. cbn. rewrite is_finite_Babs. exact Fb. }
    destruct (f64_fix_finite lm _ Fa') as [za Ha].
    destruct (both_ok _ _ Fa' Fe') as [z1 H1]. destruct (both_ok _ _ Fa' Fb') as [z2 H2].
    destruct (both_ok _ _ Fa' Fb'') as [z3 H3].
    repeat match goal with |- _ && _ = true => apply andb_true_intro; split end.
    1, 2: eapply val_or_ok; [apply (lookup_el_ok H); reflexivity|exact H1].
    1: eapply val_or_ok; [apply (cz_ok H)|exact Ha].
    1, 2: eapply val_or_ok;
      [apply (lookup_odd_ok H); [reflexivity|apply beta_arg_nonneg]|exact H3].
    1-4: eapply val_or_ok; [apply (lookup_beta_ok H); reflexivity|exact H2].
    eapply val_or_ok; [apply (dampp_ok H)|exact Ha].
  Qed.

  Lemma thrust_finite_ok (power alt mach : f64) :
    BinarySingleNaN.is_finite alt = true -> BinarySingleNaN.is_finite (nmul (nZ 5) mach) = true ->
    is_ok (thrust power alt mach) = true.
  Proof.
    intros Fa Fm. destruct (both_ok _ _ (alt_arg_finite lm alt Fa) Fm) as [z Hz].
    eapply val_or_ok; [apply thrust_ok; apply alt_arg_nonneg|exact Hz].
  Qed.
End Total.

(** * C49 *)
Section Exact.
Local Hint Extern 0 (Num xr) => exact (XR Fin) : typeclass_instances.

Lemma interpolates2_grid f da db lo hi lo' hi' t : da <> 0 -> db <> 0 ->
  (lo < hi)%Z -> (lo' < hi')%Z ->
  interpolates2 f da db lo hi lo' hi' t ->
  forall j m, (lo <= j <= hi)%Z -> (lo' <= m <= hi')%Z ->
    f (Fin (da * IZR j)) (Fin (db * IZR m)) = Ok (Fin (t j m)).
Proof.
  intros Hda Hdb Hl Hl' Hf j m Hj Hm.
  assert (Hc : forall lo hi j, (lo < hi)%Z -> (lo <= j <= hi)%Z -> exists j', in_cell lo hi j' (IZR j) /\
             (j' = j \/ (j' = j - 1)%Z)).
  { clear. intros lo hi j H Hj. destruct (Z.eq_dec j hi) as [ -> |Hn].
    - exists (hi - 1)%Z. split; [|right; reflexivity]. split; [lia|].
      split; [right; apply IZR_le; lia|left; lia].
    - exists j. split; [|left; reflexivity]. split; [lia|].
      split; [right; lra|right; apply IZR_le; lia]. }
  destruct (Hc lo hi j Hl Hj) as [j' [Hj1 Hj2]]. destruct (Hc lo' hi' m Hl' Hm) as [m' [Hm1 Hm2]].
  assert (E : forall t j' j, (j' = j \/ (j' = j - 1)%Z) -> on_cell t j' (IZR j) = t j).
  { clear. intros t j' j [ -> | -> ]; unfold on_cell.
    - ring.
    - replace (j - 1 + 1)%Z with j by lia. rewrite minus_IZR. ring. }
  rewrite (Hf _ _ j' m').
  - replace (da * IZR j / da) with (IZR j) by (field; exact Hda).
    replace (db * IZR m / db) with (IZR m) by (field; exact Hdb).
    unfold on_cell2. rewrite (E _ m' m Hm2), (E _ j' j Hj2). reflexivity.
  - replace (da * IZR j / da) with (IZR j) by (field; exact Hda). exact Hj1.
  - replace (db * IZR m / db) with (IZR m) by (field; exact Hdb). exact Hm1.
Qed.

Lemma on_cell_between t j s lo hi : IZR j <= s <= IZR (j + 1) ->
  lo <= t j <= hi -> lo <= t (j + 1)%Z <= hi -> lo <= on_cell t j s <= hi.
Proof.
  intros Hs H1 H2. unfold on_cell. rewrite plus_IZR in Hs.
  set (w := s - IZR j). assert (0 <= w <= 1) by (unfold w; lra).
  set (u := t j) in *. set (v := t (j + 1)%Z) in *. nra.
Qed.

Lemma interpolates2_between f da db lo hi lo' hi' t :
  interpolates2 f da db lo hi lo' hi' t ->
  forall a b j m bot top,
    (lo <= j < hi)%Z -> (lo' <= m < hi')%Z ->
    IZR j <= a / da <= IZR (j + 1) -> IZR m <= b / db <= IZR (m + 1) ->
    (forall j' m', (j' = j \/ j' = j + 1)%Z -> (m' = m \/ m' = m + 1)%Z -> bot <= t j' m' <= top) ->
    exists v, f (Fin a) (Fin b) = Ok (Fin v) /\ bot <= v <= top.
Proof.
  intros Hf a b j m bot top Hj Hm Ha Hb Ht. eexists. split.
  - apply (Hf a b j m); (split; [lia|]); (split; [right; lra|right; lra]).
  - unfold on_cell2. apply on_cell_between; [exact Hb| |];
      (apply on_cell_between; [exact Ha| |]); apply Ht; auto.
Qed.

(** * C50 *)
Lemma interpolates2_continuous f da db lo hi lo' hi' t :
  (lo < hi)%Z -> (lo' < hi')%Z -> interpolates2 f da db lo hi lo' hi' t -> continuous2 f.
Proof.
  intros H H' Hf.
  exists (fun p => interp2 lo hi lo' hi' t (fst p / da) (snd p / db)). split.
  - intros a b. apply (interpolates2_fun f da db); assumption.
  - intros p. apply interp2_continuous; try assumption; apply continuous_div_const.
    + apply continuous_fst.
    + apply continuous_snd.
Qed.

Lemma cz_continuous : continuous3 cz.
Proof.
  exists (fun p => interp (-2) 9 (coeff1 tab_cz (-2)) (fst (fst p) / 5)
             * (1 - (snd (fst p) / 57.3) * (snd (fst p) / 57.3)) - 0.19 * (snd p / 25)).
  split.
  - intros a b c. rewrite (cz_fin a b c (cell_of (-2) 9 (a / 5))); [reflexivity|].
    apply cell_of_in. lia.
  - intros p.
    assert (Hff : continuous (fun p : R * R * R => fst (fst p)) p).
    { apply (continuous_comp fst fst); apply continuous_fst. }
    assert (Hsf : continuous (fun p : R * R * R => snd (fst p)) p).
    { apply (continuous_comp fst snd); [apply continuous_fst|apply continuous_snd]. }
    apply (continuous_minus (V := R_NormedModule)).
    + apply (continuous_mult (K := R_AbsRing)).
      * apply (interp_continuous _ (-2) 9 (fun k _ => coeff1 tab_cz (-2) k)
                 (fun p => fst (fst p) / 5) p); [lia|intros; apply continuous_const|].
        apply continuous_div_const. exact Hff.
      * apply (continuous_minus (V := R_NormedModule)); [apply continuous_const|].
        apply (continuous_mult (K := R_AbsRing)); apply continuous_div_const; exact Hsf.
    + apply (continuous_mult (K := R_AbsRing)); [apply continuous_const|].
      apply continuous_div_const. apply continuous_snd.
Qed.

Lemma tables_continuous :
  continuous2 cx /\ continuous2 cm /\ continuous2 cl /\ continuous2 cn /\ continuous2 dlda /\
  continuous2 dldr /\ continuous2 dnda /\ continuous2 dndr /\ continuous3 cz.
Proof.
  split; [|split; [|split; [|split; [|split; [|split; [|split; [|split]]]]]]].
  9: exact cz_continuous.
  all: eapply interpolates2_continuous; cycle 2;
    [(exact cx_interp || exact cm_interp || exact cl_interp || exact cn_interp || exact dlda_interp
      || exact dldr_interp || exact dnda_interp || exact dndr_interp)|lia|lia].
Qed.

Lemma dampp_continuous : exists g : nat -> R -> R,
  (forall a, dampp (Fin a) = Ok (map (fun i => Fin (g i a)) (seq 0 9))) /\
  forall i a, continuous (g i) a.
Proof.
  exists (fun i a => interp (-2) 9 (fun j => coeff tab_dampp (-2) 0 j (Z.of_nat i)) (a / 5)).
  split.
  - intros a. rewrite (dampp_fin a (cell_of (-2) 9 (a / 5))); [reflexivity|].
    apply cell_of_in. lia.
  - intros i a.
    apply (interp_continuous _ (-2) 9 (fun j _ => coeff tab_dampp (-2) 0 j (Z.of_nat i))
             (fun a => a / 5) a); [lia|intros; apply continuous_const|].
    apply continuous_div_const. apply continuous_id.
Qed.

(** * C51 *)
Lemma interp_odd t s n : (0 < n)%Z -> (forall j, t (- j)%Z = - t j) ->
  interp (- n) n t (- s) = - interp (- n) n t s.
Proof.
  intros Hn Ht.
  pose proof (cell_of_in (- n) n s ltac:(lia)) as Hc.
  set (j := cell_of (- n) n s) in *.
  rewrite <- (on_cell_interp (- n) n t (- s) (- j - 1)).
  2: { destruct Hc as [H1 [H2 H3]]. split; [lia|]. split.
       - destruct H3 as [H3|H3]; [left; lia|right].
         rewrite plus_IZR in H3. rewrite minus_IZR, opp_IZR. lra.
       - destruct H2 as [H2|H2]; [left; lia|right].
         replace (- j - 1 + 1)%Z with (- j)%Z by lia. rewrite opp_IZR. lra. }
  rewrite <- (on_cell_interp (- n) n t s j Hc).
  rewrite <- on_cell_mirror. rewrite <- on_cell_opp. apply on_cell_ext; apply Ht.
Qed.

Lemma odd_coeff_odd tab i j : (forall i, coeff tab (-2) 0 i 0 = 0) ->
  odd_coeff tab (-2) i (- j) = - odd_coeff tab (-2) i j.
Proof.
  intros H0. unfold odd_coeff. destruct (Z.ltb_spec (- j) 0), (Z.ltb_spec j 0); try lia.
  - rewrite Z.opp_involutive. reflexivity.
  - ring.
  - assert (j = 0)%Z by lia. subst j. cbn [Z.opp]. rewrite H0. ring.
Qed.

Lemma odd_lookup_odd f tab :
  interpolates2 f 5 5 (-2) 9 (-6) 6 (odd_coeff tab (-2)) ->
  (forall i, coeff tab (-2) 0 i 0 = 0) ->
  forall a b, exists v, f (Fin a) (Fin b) = Ok (Fin v) /\ f (Fin a) (Fin (- b)) = Ok (Fin (- v)).
Proof.
  intros Hf H0 a b.
  rewrite !(interpolates2_fun f 5 5 (-2) 9 (-6) 6 (odd_coeff tab (-2))) by (assumption || lia).
  eexists. split; [reflexivity|]. do 2 f_equal. unfold interp2.
  replace (- b / 5) with (- (b / 5)) by field.
  rewrite (interp_odd _ _ 6) by
    (try lia; intros j; unfold interp, on_cell; rewrite !odd_coeff_odd by exact H0; ring).
  reflexivity.
Qed.

Lemma cl_odd a b : exists v, cl (Fin a) (Fin b) = Ok (Fin v) /\ cl (Fin a) (Fin (- b)) = Ok (Fin (- v)).
Proof.
  apply (odd_lookup_odd cl tab_cl cl_interp).
  apply (zero_column tab_cl 12); vm_compute; reflexivity || lia.
Qed.
Lemma cn_odd a b : exists v, cn (Fin a) (Fin b) = Ok (Fin v) /\ cn (Fin a) (Fin (- b)) = Ok (Fin (- v)).
Proof.
  apply (odd_lookup_odd cn tab_cn cn_interp).
  apply (zero_column tab_cn 12); vm_compute; reflexivity || lia.
Qed.

Lemma odd_zero (f : xr -> xr -> res xr) :
  (forall a b, exists v, f (Fin a) (Fin b) = Ok (Fin v) /\ f (Fin a) (Fin (- b)) = Ok (Fin (- v))) ->
  forall a, f (Fin a) (Fin 0) = Ok (Fin 0).
Proof.
  intros H a. destruct (H a 0) as [v [H1 H2]]. rewrite Ropp_0 in H2. rewrite H1 in H2.
  inversion H2. assert (v = 0) by lra. subst v. exact H1.
Qed.

(** * C52 *)
Lemma pdot_r_sign p3 p1 :
  (p3 < p1 -> 0 < pdot_r p3 p1) /\ (p1 < p3 -> pdot_r p3 p1 < 0) /\ (p1 = p3 -> pdot_r p3 p1 = 0).
Proof.
  unfold pdot_r.
  case Rle_bool_spec; intros H1; case Rle_bool_spec; intros H2;
    (split; [|split]; intros H; try lra).
  - pose proof (rtau_r_range (60 - p3)). nra.
  - pose proof (rtau_r_range (p1 - p3)). nra.
  - pose proof (rtau_r_range (p1 - p3)). nra.
  - subst. replace (p3 - p3) with 0 by ring. ring.
Qed.

Lemma pdot_step p3 p1 h : 0 <= h -> 5 * h <= 1 -> 0 <= p3 <= 100 -> 0 <= p1 <= 100 ->
  0 <= p3 + h * pdot_r p3 p1 <= 100.
Proof.
  intros Hh Hh5 H3 H1.
  assert (Hc : forall t p2, 0 <= t <= 5 -> 0 <= p2 <= 100 -> 0 <= p3 + h * (t * (p2 - p3)) <= 100).
  { intros t p2 Ht Hp. assert (0 <= h * t <= 1) by nra.
    replace (h * (t * (p2 - p3))) with ((h * t) * (p2 - p3)) by ring.
    set (w := h * t) in *. nra. }
  unfold pdot_r. case Rle_bool_spec; intros H; case Rle_bool_spec; intros H'; apply Hc; try lra.
  - pose proof (rtau_r_range (60 - p3)); lra.
  - pose proof (rtau_r_range (p1 - p3)); lra.
Qed.

Lemma power_run_range h cmds p : 0 <= h -> 5 * h <= 1 -> 0 <= p <= 100 ->
  Forall (fun c => 0 <= c <= 100) cmds -> 0 <= power_run pdot_r h p cmds <= 100.
Proof.
  intros Hh Hh5 Hp Hc. revert p Hp. induction Hc as [|c cmds Hc1 Hc IH]; intros p Hp; [exact Hp|].
  cbn. apply IH. apply pdot_step; assumption.
Qed.

(** * C53 *)
Lemma tgear_fin t : tgear (Fin t)
  = Fin (if Rle_dec t 0.77 then 64.94 * t else 217.38 * t - 117.38).
Proof.
  unfold tgear. cbn. case Rle_bool_spec; intros H; destruct (Rle_dec t 0.77); try lra;
    f_equal; lra.
Qed.

Lemma tgear_range t : 0 <= t <= 1 -> exists v, tgear (Fin t) = Fin v /\ 0 <= v <= 100.
Proof.
  intros H. rewrite tgear_fin. eexists. split; [reflexivity|].
  destruct (Rle_dec t 0.77); lra.
Qed.
Lemma tgear_onto y : 0 <= y <= 100 -> exists t, 0 <= t <= 1 /\ tgear (Fin t) = Fin y.
Proof.
  intros H. destruct (Rle_lt_dec y 50.0038) as [L|L].
  - exists (y / 64.94). split; [lra|]. rewrite tgear_fin.
    destruct (Rle_dec (y / 64.94) 0.77); [|lra]. f_equal. field_simplify; lra.
  - exists ((y + 117.38) / 217.38). split; [lra|]. rewrite tgear_fin.
    destruct (Rle_dec ((y + 117.38) / 217.38) 0.77); [lra|]. f_equal. field_simplify; lra.
Qed.

(** * C55 *)
Lemma adc_fin vt alt : alt < 142247 ->
  adc (Fin vt) (Fin alt)
  = (Fin (vt / sqrt (1.4 * 1716.3 * temperature alt)), Fin (0.5 * density alt * vt * vt)).
Proof.
  intros Ha. unfold adc.
  assert (Htf : 0 < 1 - 0.00000703 * alt) by lra.
  assert (E1 : nsub n1 (nmul (nlit 703 100000000) (Fin alt)) = Fin (1 - 0.00000703 * alt)).
  { cbn. f_equal. lra. }
  rewrite E1.
  assert (E2 : (if nleb (nZ 35000) (Fin alt) then nZ 390
                else nmul (nZ 519) (Fin (1 - 0.00000703 * alt))) = Fin (temperature alt)).
  { rewrite !nZ_fin. unfold temperature. cbn. case Rle_bool_spec; intros H;
      destruct (Rle_dec 35000 alt); try lra; reflexivity. }
  rewrite E2.
  assert (E3 : npow (Fin (1 - 0.00000703 * alt)) (nlit 414 100)
               = Fin (Rpower (1 - 0.00000703 * alt) 4.14)).
  { cbn [npow nlit XR xpow]. rewrite Rlt_bool_true by exact Htf. do 2 f_equal. }
  rewrite E3.
  assert (Ht : 390 <= temperature alt) by (unfold temperature; destruct (Rle_dec 35000 alt); lra).
  assert (E4 : nsqrt (nmul (nmul (nlit 14 10) (nlit 17163 10)) (Fin (temperature alt)))
               = Fin (sqrt (1.4 * 1716.3 * temperature alt))).
  { cbn. rewrite Rlt_bool_false by (apply Rmult_le_pos; lra).
    f_equal. }
  rewrite E4.
  assert (Hs : sqrt (1.4 * 1716.3 * temperature alt) <> 0).
  { apply Rgt_not_eq. apply sqrt_lt_R0. lra. }
  f_equal. cbn. rewrite Req_bool_false by exact Hs. reflexivity.
Qed.

Lemma temperature_ge alt : 390 <= temperature alt.
Proof. unfold temperature. destruct (Rle_dec 35000 alt); lra. Qed.

Lemma adc_positive vt alt : 0 < vt -> alt < 142247 ->
  exists mach qbar, adc (Fin vt) (Fin alt) = (Fin mach, Fin qbar) /\ 0 < mach /\ 0 < qbar /\
    mach * sqrt (1.4 * 1716.3 * temperature alt) = vt /\ qbar = / 2 * density alt * (vt * vt).
Proof.
  intros Hv Ha. rewrite adc_fin by exact Ha.
  assert (Hs : 0 < sqrt (1.4 * 1716.3 * temperature alt)).
  { apply sqrt_lt_R0. pose proof (temperature_ge alt). lra. }
  assert (Hd : 0 < density alt).
  { unfold density. apply Rmult_lt_0_compat; [lra|]. apply exp_pos. }
  do 2 eexists. split; [reflexivity|]. repeat split.
  - apply Rdiv_lt_0_compat; assumption.
  - assert (0 < density alt * vt) by nra. nra.
  - field. lra.
  - lra.
Qed.

Lemma adc_above vt alt : 142248 <= alt -> snd (adc (Fin vt) (Fin alt)) = NaN.
Proof.
  intros Ha. unfold adc. cbn [snd].
  assert (E1 : nsub n1 (nmul (nlit 703 100000000) (Fin alt)) = Fin (1 - 0.00000703 * alt)).
  { cbn. f_equal. lra. }
  rewrite E1. cbn [npow nlit XR xpow]. rewrite Rlt_bool_false by lra.
  rewrite Req_bool_false by lra. reflexivity.
Qed.

End Exact.
