(** The lookups never index outside their tables: for every number system in which
    [fix(1.1 * sign)] is the sign, and for binary64 in particular. *)
From Coq Require Import List ZArith Reals Lra Lia Bool.
From Flocq Require Import Core.Core IEEE754.BinarySingleNaN.
From Verif Require Import PyBase Num XReal Float64 F64Wrap AeroTables Aero AeroLemmas.
Import ListNotations.

Section Generic.
  Context {T : Type} {N : Num T}.
  Hypothesis H11 : forall z, (-1 <= z <= 1)%Z -> fix_ (nmul (nlit 11 10) (nZ z)) = Ok z.

  Lemma sign_range (x : T) : (-1 <= sign_ x <= 1)%Z.
  Proof. unfold sign_. destruct (nltb x n0); [lia|]. destruct (neqb x n0); lia. Qed.

  Lemma cell_ok lo hi (s : T) z : (lo < 0)%Z -> (0 < hi)%Z -> fix_ s = Ok z ->
    exists k d l, cell lo hi s = Ok (k, d, l) /\ (lo < k < hi)%Z /\ (lo <= l <= hi)%Z.
  Proof.
    intros Hl Hh Hf. unfold cell. rewrite Hf. cbn [bind].
    set (k := if (hi <=? _)%Z then _ else _).
    rewrite H11 by apply sign_range. cbn [bind].
    exists k, (nsub s (nZ k)), (k + sign_ (nsub s (nZ k)))%Z.
    split; [reflexivity|].
    assert (Hk : (lo < k < hi)%Z).
    { unfold k. destruct (Z.leb_spec z lo);
        match goal with |- context [(?a <=? ?b)%Z] => destruct (Z.leb_spec a b) end; lia. }
    pose proof (sign_range (nsub s (nZ k))). lia.
  Qed.

  Lemma cell_err lo hi (s : T) e : fix_ s = Err e -> cell lo hi s = Err e.
  Proof. intros H. unfold cell. rewrite H. reflexivity. Qed.

  Lemma beta_cell_ok (s : T) z : fix_ s = Ok z -> (0 <= z)%Z ->
    exists k d l, beta_cell s = Ok (k, d, l) /\ (0 < k < 6)%Z /\ (0 <= l <= 6)%Z.
  Proof.
    intros Hf Hz. unfold beta_cell. rewrite Hf. cbn [bind].
    set (k := if (6 <=? _)%Z then _ else _).
    rewrite H11 by apply sign_range. cbn [bind].
    exists k, (nsub s (nZ k)), (k + sign_ (nsub s (nZ k)))%Z.
    split; [reflexivity|].
    assert (Hk : (0 < k < 6)%Z).
    { unfold k. destruct (Z.eqb_spec z 0);
        match goal with |- context [(?a <=? ?b)%Z] => destruct (Z.leb_spec a b) end; lia. }
    pose proof (sign_range (nsub s (nZ k))). lia.
  Qed.

  (** A table of [m] rows of at least [n] entries. *)
  Definition has_shape (a : table) (n m : Z) : bool :=
    Z.eqb (Z.of_nat (length a)) m && forallb (fun r => Z.eqb (Z.of_nat (length r)) n) a.

  Lemma py_index_ok {A} (l : list A) i : (0 <= i < Z.of_nat (length l))%Z ->
    exists a, py_index l i = Ok a /\ In a l.
  Proof.
    intros Hi. unfold py_index. destruct (Z.ltb_spec i 0); [lia|].
    replace ((0 <=? i)%Z && (i <? Z.of_nat (length l))%Z) with true.
    2: { symmetry. apply andb_true_intro. split; [apply Z.leb_le|apply Z.ltb_lt]; lia. }
    destruct (nth_error l (Z.to_nat i)) eqn:E.
    - exists a. split; [reflexivity|]. eapply nth_error_In. exact E.
    - apply nth_error_None in E. lia.
  Qed.

  Lemma tget_ok (a : table) n m k j : has_shape a n m = true ->
    (0 <= k < n)%Z -> (0 <= j < m)%Z -> exists v : T, tget a k j = Ok v.
  Proof.
    intros H Hk Hj. unfold has_shape in H. apply andb_true_iff in H. destruct H as [H1 H2].
    apply Z.eqb_eq in H1. rewrite forallb_forall in H2. unfold tget.
    destruct (py_index_ok a j) as [row [-> Hrow]]; [lia|]. cbn [bind].
    specialize (H2 row Hrow). apply Z.eqb_eq in H2.
    destruct (py_index_ok row k) as [v [-> _]]; [lia|]. eexists. reflexivity.
  Qed.

  Lemma blend_ok (a : table) n m k l j i (da de : T) : has_shape a n m = true ->
    (1 <= k <= n)%Z -> (1 <= l <= n)%Z -> (1 <= j <= m)%Z -> (1 <= i <= m)%Z ->
    exists v, blend a k l j i da de = Ok v.
  Proof.
    intros H Hk Hl Hj Hi. unfold blend.
    destruct (tget_ok a n m (k - 1) (j - 1) H) as [v1 ->]; try lia.
    destruct (tget_ok a n m (k - 1) (i - 1) H) as [v2 ->]; try lia.
    destruct (tget_ok a n m (l - 1) (j - 1) H) as [v3 ->]; try lia.
    destruct (tget_ok a n m (l - 1) (i - 1) H) as [v4 ->]; try lia.
    cbn [bind]. eexists. reflexivity.
  Qed.

  (** A result that is a value or the failure of one of the two roundings. *)
  Definition val_or {A} (r : res A) (f : res Z) : Prop :=
    match f with Ok _ => exists v, r = Ok v | Err e => r = Err e end.
  Definition both (f g : res Z) : res Z := match f with Ok _ => g | Err e => Err e end.

  Lemma lookup_el_ok a (s e : T) : has_shape a 12 5 = true ->
    val_or ('(k, da, l) <- cell (-2) 9 s ;;
            '(m, de, n) <- cell (-2) 2 e ;;
            blend a (k + 3) (l + 3) (m + 3) (n + 3) da de) (both (fix_ s) (fix_ e)).
  Proof.
    intros H. unfold val_or, both. destruct (fix_ s) eqn:Es.
    2: { rewrite (cell_err _ _ _ _ Es). reflexivity. }
    destruct (cell_ok (-2) 9 s _ eq_refl eq_refl Es) as [k [da [l [-> Hk]]]]. cbn [bind].
    destruct (fix_ e) eqn:Ee.
    2: { rewrite (cell_err _ _ _ _ Ee). reflexivity. }
    destruct (cell_ok (-2) 2 e _ eq_refl eq_refl Ee) as [m [de [n [-> Hm]]]]. cbn [bind].
    apply (blend_ok a 12 5); try assumption; lia.
  Qed.

  Lemma lookup_beta_ok a (s e : T) : has_shape a 12 7 = true ->
    val_or ('(k, da, l) <- cell (-2) 9 s ;;
            '(m, de, n) <- cell (-3) 3 e ;;
            blend a (k + 3) (l + 3) (m + 4) (n + 4) da de) (both (fix_ s) (fix_ e)).
  Proof.
    intros H. unfold val_or, both. destruct (fix_ s) eqn:Es.
    2: { rewrite (cell_err _ _ _ _ Es). reflexivity. }
    destruct (cell_ok (-2) 9 s _ eq_refl eq_refl Es) as [k [da [l [-> Hk]]]]. cbn [bind].
    destruct (fix_ e) eqn:Ee.
    2: { rewrite (cell_err _ _ _ _ Ee). reflexivity. }
    destruct (cell_ok (-3) 3 e _ eq_refl eq_refl Ee) as [m [de [n [-> Hm]]]]. cbn [bind].
    apply (blend_ok a 12 7); try assumption; lia.
  Qed.

  Lemma lookup_odd_ok a (s e b : T) : has_shape a 12 7 = true ->
    (forall z, fix_ e = Ok z -> (0 <= z)%Z) ->
    val_or ('(k, da, l) <- cell (-2) 9 s ;;
            '(m, db, n) <- beta_cell e ;;
            dum <- blend a (k + 3) (l + 3) (m + 1) (n + 1) da db ;;
            Ok (nmul dum (nZ (sign_ b)))) (both (fix_ s) (fix_ e)).
  Proof.
    intros H Hpos. unfold val_or, both. destruct (fix_ s) eqn:Es.
    2: { rewrite (cell_err _ _ _ _ Es). reflexivity. }
    destruct (cell_ok (-2) 9 s _ eq_refl eq_refl Es) as [k [da [l [-> Hk]]]]. cbn [bind].
    destruct (fix_ e) eqn:Ee.
    2: { unfold beta_cell. rewrite Ee. reflexivity. }
    destruct (beta_cell_ok e _ Ee (Hpos _ eq_refl)) as [m [de [n [-> Hm]]]]. cbn [bind].
    destruct (blend_ok a 12 7 (k + 3) (l + 3) (m + 1) (n + 1) da de) as [v ->];
      try assumption; try lia.
    cbn [bind]. eexists. reflexivity.
  Qed.

  Lemma cz_ok (alpha beta el : T) :
    val_or (cz alpha beta el) (fix_ (nmul (nlit 2 10) alpha)).
  Proof.
    unfold val_or, cz. destruct (fix_ (nmul (nlit 2 10) alpha)) eqn:Es.
    2: { rewrite (cell_err _ _ _ _ Es). reflexivity. }
    destruct (cell_ok (-2) 9 _ _ eq_refl eq_refl Es) as [k [da [l [-> Hk]]]]. cbn [bind].
    destruct (py_index_ok cz_table (k + 3 - 1)) as [v1 [-> _]];
      [change (length cz_table) with 12%nat; lia|].
    destruct (py_index_ok cz_table (l + 3 - 1)) as [v2 [-> _]];
      [change (length cz_table) with 12%nat; lia|].
    cbn. eexists. reflexivity.
  Qed.

  Lemma dampp_ok (alpha : T) : val_or (dampp alpha) (fix_ (nmul (nlit 2 10) alpha)).
  Proof.
    unfold val_or, dampp. destruct (fix_ (nmul (nlit 2 10) alpha)) eqn:Es.
    2: { rewrite (cell_err _ _ _ _ Es). reflexivity. }
    destruct (cell_ok (-2) 9 _ _ eq_refl eq_refl Es) as [k [da [l [-> Hk]]]]. cbn [bind].
    assert (Ht : forall l', (forall i, In i l' -> 0 <= i < 9)%Z ->
      exists v, mapM (fun i : Z =>
            ak <- tget dampp_table (k + 3 - 1) i ;;
            al <- tget dampp_table (l + 3 - 1) i ;;
            Ok (nadd ak (nmul (nabs da) (nsub al ak)))) l' = Ok v).
    { induction l' as [|i l' IH]; intros Hl'; [eexists; reflexivity|]. cbn [mapM].
      assert (0 <= i < 9)%Z by (apply Hl'; left; reflexivity).
      destruct (tget_ok dampp_table 12 9 (k + 3 - 1) i eq_refl) as [v1 ->]; try lia.
      destruct (tget_ok dampp_table 12 9 (l + 3 - 1) i eq_refl) as [v2 ->]; try lia.
      cbn [bind]. destruct IH as [v ->]; [intros; apply Hl'; right; assumption|].
      cbn [bind]. eexists. reflexivity. }
    apply Ht. cbn. lia.
  Qed.

  Lemma thrust_at_ok a i m (dh cdh dm : T) : has_shape a 6 6 = true ->
    (0 <= i < 5)%Z -> (0 <= m < 5)%Z -> exists v, thrust_at a i m dh cdh dm = Ok v.
  Proof.
    intros H Hi Hm. unfold thrust_at.
    destruct (tget_ok a 6 6 i m H) as [v1 ->]; try lia.
    destruct (tget_ok a 6 6 (i + 1) m H) as [v2 ->]; try lia.
    destruct (tget_ok a 6 6 i (m + 1) H) as [v3 ->]; try lia.
    destruct (tget_ok a 6 6 (i + 1) (m + 1) H) as [v4 ->]; try lia.
    cbn [bind]. eexists. reflexivity.
  Qed.

  Definition alt_arg (alt : T) : T :=
    nmul (nlit 1 10000) (if nltb alt n0 then nlit 1 100 else alt).

  Lemma thrust_ok (power alt mach : T) :
    (forall z, fix_ (alt_arg alt) = Ok z -> (0 <= z)%Z) ->
    val_or (thrust power alt mach) (both (fix_ (alt_arg alt)) (fix_ (nmul (nZ 5) mach))).
  Proof.
    intros Hpos. unfold val_or, both, thrust. fold (alt_arg alt).
    destruct (fix_ (alt_arg alt)) as [i|] eqn:Ei; [|reflexivity]. cbn [bind].
    specialize (Hpos i eq_refl).
    destruct (fix_ (nmul (nZ 5) mach)) as [m|] eqn:Em; [|reflexivity]. cbn [bind].
    set (i' := if (5 <=? i)%Z then 4%Z else i).
    set (m' := if (5 <=? m)%Z then 4%Z else if (m <=? 0)%Z then 0%Z else m).
    assert (Hi : (0 <= i' < 5)%Z) by (unfold i'; destruct (Z.leb_spec 5 i); lia).
    assert (Hm : (0 <= m' < 5)%Z)
      by (unfold m'; destruct (Z.leb_spec 5 m), (Z.leb_spec m 0); lia).
    match goal with |- context [thrust_at thrust_b i' m' ?a ?b ?c] =>
      destruct (thrust_at_ok thrust_b i' m' a b c eq_refl Hi Hm) as [v1 ->];
      destruct (thrust_at_ok thrust_a i' m' a b c eq_refl Hi Hm) as [v2 E2];
      destruct (thrust_at_ok thrust_c i' m' a b c eq_refl Hi Hm) as [v3 E3]
    end.
    cbn [bind]. destruct (nltb power (nZ 50)).
    - rewrite E2. cbn [bind]. eexists. reflexivity.
    - rewrite E3. cbn [bind]. eexists. reflexivity.
  Qed.
End Generic.

(** * binary64 *)
Section F64.
  Variable lm : libm.
  Local Hint Extern 0 (Num f64) => exact (F64 lm) : typeclass_instances.
  Local Open Scope R_scope.

  Lemma f64_fix_sign z : (-1 <= z <= 1)%Z ->
    fix_ (nmul (nlit 11 10) (nZ z : f64)) = Ok z.
  Proof.
    intros Hz. assert (z = -1 \/ z = 0 \/ z = 1)%Z as [ -> | [ -> | -> ] ] by lia;
      vm_compute; reflexivity.
  Qed.

  Lemma f64_floor_finite x : is_finite x = true -> exists z, f64_floorZ x = Ok z.
  Proof. destruct x; try discriminate; intros _; eexists; reflexivity. Qed.

  Lemma f64_fix_finite (x : f64) : is_finite x = true -> exists z, fix_ x = Ok z.
  Proof.
    intros H. unfold fix_. destruct (nltb n0 x).
    - apply f64_floor_finite. exact H.
    - cbn. unfold f64_ceilZ. destruct (f64_floor_finite (Bopp x)) as [z ->].
      + rewrite is_finite_Bopp. exact H.
      + eexists. reflexivity.
  Qed.

  (** Rounding failures are never IndexErrors. *)
  Lemma f64_fix_err (x : f64) e : fix_ x = Err e -> e = ValueError \/ e = OverflowError.
  Proof.
    unfold fix_. destruct (nltb n0 x); cbn; unfold f64_ceilZ.
    - destruct x; cbn; intros H; inversion H; auto.
    - destruct x; cbn; intros H; inversion H; auto.
  Qed.

  (** Multiplication by a constant of [0, 1] and division by a constant >= 1. *)
  Lemma bleb_le (x y : f64) : is_finite x = true -> is_finite y = true ->
    Bleb x y = true -> B2R x <= B2R y.
  Proof.
    intros Fx Fy H. rewrite (Bleb_correct 53 1024 x y Fx Fy) in H.
    destruct (Rle_bool_spec (B2R x) (B2R y)) as [L|L]; [exact L|discriminate H].
  Qed.

  Lemma scale_mult (c x : f64) : is_finite c = true -> is_finite x = true ->
    0 <= B2R c <= 1 ->
    is_finite (Bmult mode_NE c x) = true /\ B2R (Bmult mode_NE c x) = rnd64 (B2R c * B2R x).
  Proof.
    intros Fc Fx Hc. pose proof (Bmult_correct 53 1024 _ _ mode_NE c x) as Q.
    rewrite Rlt_bool_true in Q.
    - destruct Q as [Q1 [Q2 _]]. rewrite Q2, Fc, Fx. split; [reflexivity|exact Q1].
    - apply Rle_lt_trans with (Rabs (B2R x)); [|apply abs_B2R_lt_emax].
      apply Rabs_le. apply rnd64_bounds.
      + apply fmt64_opp. apply generic_format_abs, B2R_fmt.
      + apply generic_format_abs, B2R_fmt.
      + apply Rabs_le_inv. rewrite Rabs_mult, (Rabs_pos_eq (B2R c)) by lra.
        pose proof (Rabs_pos (B2R x)). nra.
  Qed.

  Lemma scale_div (x c : f64) : is_finite x = true -> 1 <= B2R c ->
    is_finite (Bdiv mode_NE x c) = true.
  Proof.
    intros Fx Hc. pose proof (Bdiv_correct 53 1024 _ _ mode_NE x c) as Q.
    rewrite Rlt_bool_true in Q.
    - destruct Q as [_ [Q2 _]]; [lra|]. rewrite Q2. exact Fx.
    - apply Rle_lt_trans with (Rabs (B2R x)); [|apply abs_B2R_lt_emax].
      apply Rabs_le. apply rnd64_bounds.
      + apply fmt64_opp. apply generic_format_abs, B2R_fmt.
      + apply generic_format_abs, B2R_fmt.
      + apply Rabs_le_inv. unfold Rdiv. rewrite Rabs_mult, Rabs_inv, (Rabs_pos_eq (B2R c)) by lra.
        pose proof (Rabs_pos (B2R x)).
        assert (/ B2R c <= 1) by (rewrite <- Rinv_1; apply Rinv_le_contravar; lra).
        assert (0 < / B2R c) by (apply Rinv_0_lt_compat; lra). nra.
  Qed.

  Lemma const_unit (c : f64) :
    is_finite c && Bleb (B754_zero false) c && Bleb c Bone = true ->
    is_finite c = true /\ 0 <= B2R c <= 1.
  Proof.
    intros H. apply andb_true_iff in H. destruct H as [H H3].
    apply andb_true_iff in H. destruct H as [H1 H2]. split; [exact H1|].
    apply bleb_le in H2; [|reflexivity|exact H1].
    apply bleb_le in H3; [|exact H1|reflexivity].
    rewrite Bone_correct in H3. cbn in H2. lra.
  Qed.

  Lemma const_big (c : f64) : is_finite c && Bleb Bone c = true -> 1 <= B2R c.
  Proof.
    intros H. apply andb_true_iff in H. destruct H as [H1 H2].
    apply bleb_le in H2; [|reflexivity|exact H1]. rewrite Bone_correct in H2. exact H2.
  Qed.

  Lemma f64_tenth (x : f64) : is_finite x = true -> is_finite (nmul (nlit 2 10) x) = true.
  Proof.
    intros H. destruct (const_unit (nlit 2 10)) as [F C]; [vm_compute; reflexivity|].
    apply (scale_mult _ _ F H C).
  Qed.
  Lemma f64_tenth1 (x : f64) : is_finite x = true -> is_finite (nmul (nlit 1 10) x) = true.
  Proof.
    intros H. destruct (const_unit (nlit 1 10)) as [F C]; [vm_compute; reflexivity|].
    apply (scale_mult _ _ F H C).
  Qed.
  Lemma f64_div12 (x : f64) : is_finite x = true -> is_finite (ndiv x (nZ 12)) = true.
  Proof.
    intros H. apply scale_div; [exact H|]. apply const_big. vm_compute. reflexivity.
  Qed.

  Lemma f64_fix_nonneg (x : f64) z : (is_finite x = true -> 0 <= B2R x) ->
    fix_ x = Ok z -> (0 <= z)%Z.
  Proof.
    intros H. unfold fix_. cbn [nltb nfloorZ nceilZ F64]. destruct x as [s|s| |s m e Hb].
    - destruct (Bltb _ _); cbn; intros E; inversion E; lia.
    - destruct (Bltb _ _); cbn; intros E; discriminate E.
    - destruct (Bltb _ _); cbn; intros E; discriminate E.
    - specialize (H eq_refl). destruct s.
      + exfalso. cbn in H. unfold F2R in H. cbn in H.
        pose proof (bpow_gt_0 radix2 e) as Hp.
        assert (IZR (Zneg m) < 0) by (apply IZR_lt; lia). nra.
      + assert (Hp : (0 <= e)%Z -> (0 < 2 ^ e)%Z) by (intros; apply Z.pow_pos_nonneg; lia).
        assert (Hn : (e < 0)%Z -> (0 < 2 ^ (- e))%Z) by (intros; apply Z.pow_pos_nonneg; lia).
        destruct (Bltb _ _); unfold f64_ceilZ; cbn [f64_floorZ Bopp signed negb];
          destruct (Z.leb_spec 0 e) as [L|L]; intros E; apply (f_equal (fun r =>
            match r with Ok v => v | Err _ => z end)) in E; cbn beta iota in E; subst z.
        * apply Z.mul_nonneg_nonneg; [lia|]. specialize (Hp L). lia.
        * apply Z.div_pos; [lia|]. exact (Hn L).
        * specialize (Hp L). rewrite <- Z.mul_opp_l. apply Z.mul_nonneg_nonneg; lia.
        * specialize (Hn L). assert (Z.neg m / 2 ^ (- e) <= 0)%Z; [|lia].
          apply Z.div_le_upper_bound; lia.
  Qed.

  Lemma mult_nonneg (c x : f64) : is_finite c = true -> 0 <= B2R c <= 1 ->
    (is_finite x = true -> 0 <= B2R x) ->
    is_finite (Bmult mode_NE c x) = true -> 0 <= B2R (Bmult mode_NE c x).
  Proof.
    intros Fc Hc Hx F.
    destruct (is_finite x) eqn:Fx.
    - destruct (scale_mult c x Fc Fx Hc) as [_ ->].
      replace 0 with (rnd64 0) by apply round_0, valid_rnd_round_mode.
      apply rnd64_le. specialize (Hx eq_refl). nra.
    - exfalso. destruct x; try discriminate Fx; destruct c; try discriminate Fc;
        cbn in F; discriminate F.
  Qed.

  Lemma beta_arg_nonneg (b : f64) z :
    fix_ (nmul (nlit 2 10) (nabs b)) = Ok z -> (0 <= z)%Z.
  Proof.
    apply f64_fix_nonneg. destruct (const_unit (nlit 2 10)) as [F C]; [vm_compute; reflexivity|].
    apply mult_nonneg; try assumption. intros _. cbn. rewrite B2R_Babs. apply Rabs_pos.
  Qed.

  Lemma alt_arg_nonneg (alt : f64) z : fix_ (alt_arg alt) = Ok z -> (0 <= z)%Z.
  Proof.
    apply f64_fix_nonneg. unfold alt_arg.
    destruct (const_unit (nlit 1 10000)) as [F C]; [vm_compute; reflexivity|].
    apply mult_nonneg; try assumption.
    destruct (nltb alt n0) eqn:E; intros Fa.
    - destruct (const_unit (nlit 1 100)) as [_ C']; [vm_compute; reflexivity|]. apply C'.
    - cbn [nltb F64] in E. rewrite Bltb_correct in E; [|exact Fa|vm_compute; reflexivity].
      destruct (Rlt_bool_spec (B2R alt) (B2R (n0 : f64))) as [L|L]; [discriminate E|].
      replace (B2R (n0 : f64)) with 0 in L; [exact L|].
      replace (n0 : f64) with (B754_zero false : f64) by (vm_compute; reflexivity). reflexivity.
  Qed.

  Lemma alt_arg_finite (alt : f64) : is_finite alt = true -> is_finite (alt_arg alt) = true.
  Proof.
    intros Fa. unfold alt_arg.
    destruct (const_unit (nlit 1 10000)) as [F C]; [vm_compute; reflexivity|].
    apply (scale_mult _ _ F); [|exact C]. destruct (nltb alt n0); [vm_compute; reflexivity|exact Fa].
  Qed.
End F64.
