(** Rounding error of one Euler step of any linear dynamics (C112). *)
From Coq Require Import String ZArith Reals Bool List Lra Lia Permutation.
From Flocq Require Import Core.Core IEEE754.BinarySingleNaN.
From Verif Require Import PyBase Num Arr BaseModel Cwh Spec SpecCwh NumOrdLemmas ArrLemmas BaseLemmas BaseLemmas2 BaseLemmas3 LimLemmas
  Float64 F64Wrap F64Bound F64Err SpecRound RoundCwh SpecLin.
Import List ListNotations.
Local Open Scope R_scope.

Lemma ap_mono k G D k' G' D' a t g : (k <= k')%nat -> (G <= G')%Z -> (D <= D')%Z -> ap k G D a t g -> ap k' G' D' a t g.
Proof.
  intros K HG HD [F E Ht Hg]. split; [exact F| |exact Ht|].
  - eapply Rle_trans; [exact E|]. pose proof (Rabs_pos t). apply Rplus_le_compat; [|apply bpow_le, HD].
    apply Rmult_le_compat_r; [lra|apply eps_mono, K].
  - eapply Rle_trans; [exact Hg|apply bpow_le, HG].
Qed.

(** Adding a zero is exact. *)
Lemma ap_plus0 k G D (a : f64) t g : ap k G D a t g -> ap k G D (Bplus mode_NE (B754_zero false) a) t g.
Proof.
  intros [F E Ht Hg].
  assert (R : rnd64 (0 + B2R a) = B2R a).
  { rewrite Rplus_0_l. apply round_generic; [apply valid_rnd_N|apply generic_format_B2R]. }
  destruct (plus64 (B754_zero false) a eq_refl F) as [E1 E2].
  { cbn [B2R]. rewrite R. apply abs_B2R_lt_emax. }
  cbn [B2R] in E1. rewrite R in E1. split; [exact E2|rewrite E1; exact E|exact Ht|exact Hg].
Qed.

Record item := { iv : f64; it : R; ig : R }.
Definition sum_t (L : list item) : R := fold_right Rplus 0 (map it L).
Definition sum_g (L : list item) : R := fold_right Rplus 0 (map ig L).
Lemma fold_app l m : fold_right Rplus 0 (l ++ m) = fold_right Rplus 0 l + fold_right Rplus 0 m.
Proof. induction l as [|a l IH]; cbn [app fold_right]; [ring|rewrite IH; ring]. Qed.
Lemma fold_perm l m : Permutation l m -> fold_right Rplus 0 l = fold_right Rplus 0 m.
Proof. induction 1; cbn [fold_right]; [reflexivity|rewrite IHPermutation; reflexivity|ring|congruence]. Qed.

Lemma summed_ap l v : summed l v -> forall k G D L, map iv L = l -> (1 <= k)%nat -> (k + length l <= 500)%nat -> (0 <= G <= 600)%Z ->
  (-1075 <= D)%Z -> (D + 3 * Z.of_nat (length l) <= 0)%Z -> (length l <= 200)%nat ->
  Forall (fun x => ap k G D (iv x) (it x) (ig x)) L ->
  ap (k + length l) (G + Z.of_nat (length l)) (D + 3 * Z.of_nat (length l)) v (sum_t L) (sum_g L).
Proof.
  induction 1 as [|a|l a Sm IH|l l1 l2 a b N1 N2 Pm S1 IH1 S2 IH2]; intros k G D L EL K1 Kn HG HD HD2 Ln Fa.
  - destruct L; [|discriminate]. unfold sum_t, sum_g. cbn. eapply ap_mono; [| | |apply (ap_zero G)]; lia.
  - destruct L as [|x [|? ?]]; try discriminate. injection EL as <-. inversion Fa as [|? ? Ax _]; subst.
    unfold sum_t, sum_g. cbn [map fold_right]. rewrite !Rplus_0_r. eapply ap_mono; [| | |exact Ax]; cbn [length]; lia.
  - apply ap_plus0, IH; auto.
  - subst l. pose proof (Permutation_length Pm) as Ll. rewrite app_length in Ll. rewrite map_length in *.
    assert (1 <= length l1)%nat by (destruct l1; [congruence|cbn; lia]).
    assert (1 <= length l2)%nat by (destruct l2; [congruence|cbn; lia]).
    apply Permutation_sym in Pm. destruct (Permutation_map_inv iv L Pm) as (L' & EL' & PL).
    symmetry in EL'. apply map_eq_app in EL' as (L1 & L2 & -> & E1 & E2).
    apply (Permutation_Forall PL) in Fa. apply Forall_app in Fa as [Fa1 Fa2].
    assert (Et : sum_t L = sum_t L1 + sum_t L2).
    { unfold sum_t. rewrite (fold_perm _ _ (Permutation_map it PL)), map_app. apply fold_app. }
    assert (Eg : sum_g L = sum_g L1 + sum_g L2).
    { unfold sum_g. rewrite (fold_perm _ _ (Permutation_map ig PL)), map_app. apply fold_app. }
    rewrite Et, Eg.
    pose proof (IH1 k G D L1 E1 K1 ltac:(lia) HG HD ltac:(lia) ltac:(lia) Fa1) as A1.
    pose proof (IH2 k G D L2 E2 K1 ltac:(lia) HG HD ltac:(lia) ltac:(lia) Fa2) as A2.
    eapply ap_mono; [| | |eapply ap_add; [| | | | | |exact A1|exact A2]]; lia.
Qed.

(** A row of a matrix times a vector. *)
Definition prod_items (L : list item) (s : list f64) : list item :=
  zipw (fun x y => {| iv := Bmult mode_NE (iv x) y; it := it x * B2R y; ig := ig x * Rabs (B2R y) |}) L s.
Lemma zipw_map_iv L s : map iv (prod_items L s) = zipw (Bmult mode_NE) (map iv L) s.
Proof. revert s. induction L as [|x L IH]; intros [|y s]; try reflexivity. unfold prod_items in *. cbn [zipw map]. f_equal. apply IH. Qed.
Lemma prod_t L s : sum_t (prod_items L s) = rdot (map it L) (map B2R s).
Proof.
  revert s. induction L as [|x L IH]; intros [|y s]; try reflexivity. unfold prod_items, sum_t, rdot in *. cbn [zipw map fold_right it].
  f_equal. apply IH.
Qed.
Lemma prod_g L s : sum_g (prod_items L s) = rdot (map ig L) (map Rabs (map B2R s)).
Proof.
  revert s. induction L as [|x L IH]; intros [|y s]; try reflexivity. unfold prod_items, sum_g, rdot in *. cbn [zipw map fold_right ig].
  f_equal. apply IH.
Qed.
Definition entry (x : item) : Prop := ap 1 100 (-1074) (iv x) (it x) (ig x).
Lemma prod_ap L s : Forall entry L -> Forall (within 100) s ->
  Forall (fun x => ap 2 200 (-969) (iv x) (it x) (ig x)) (prod_items L s).
Proof.
  intros FL. revert s. induction FL as [|x L Ax FL IH]; intros [|y s] Fs; try constructor.
  - cbn [iv it ig]. inversion Fs as [|? ? Wy _]; subst.
    eapply ap_mono; [| | |eapply ap_mul; [| | | | | | |exact Ax|apply (ap_in y 100 Wy)]]; lia.
  - apply IH. inversion Fs; assumption.
Qed.

Lemma row_ap L s v : Forall entry L -> Forall (within 100) s -> (length s <= 100)%nat -> length L = length s ->
  summed (zipw (Bmult mode_NE) (map iv L) s) v ->
  ap (2 + length s) 300 (-669) v (rdot (map it L) (map B2R s)) (rdot (map ig L) (map Rabs (map B2R s))).
Proof.
  intros FL Fs Ls LL Sm. rewrite <- zipw_map_iv in Sm. rewrite <- prod_t, <- prod_g.
  assert (Lp : length (map iv (prod_items L s)) = length s).
  { rewrite zipw_map_iv, zipw_length; rewrite map_length; exact LL. }
  eapply ap_mono; [| | |eapply (summed_ap _ _ Sm 2 200 (-969) (prod_items L s) eq_refl)]; rewrite ?Lp; try lia.
  apply prod_ap; assumption.
Qed.

(** One component of the Euler step. *)
Lemma comp_ap LA LB s u p q (x h : f64) m : Forall entry LA -> Forall entry LB -> Forall (within 100) s -> Forall (within 100) u ->
  (length s <= 100)%nat -> (length u <= 100)%nat -> length LA = length s -> length LB = length u -> m = Nat.max (length s) (length u) ->
  summed (zipw (Bmult mode_NE) (map iv LA) s) p -> summed (zipw (Bmult mode_NE) (map iv LB) u) q ->
  within 100 x -> within 100 h ->
  is_finite (Bplus mode_NE p q) = true /\
  ap (m + 5) 402 (-500) (Bplus mode_NE x (Bmult mode_NE h (Bplus mode_NE p q)))
    (B2R x + B2R h * (rdot (map it LA) (map B2R s) + rdot (map it LB) (map B2R u)))
    (Rabs (B2R x) + Rabs (B2R h) * (rdot (map ig LA) (map Rabs (map B2R s)) + rdot (map ig LB) (map Rabs (map B2R u)))).
Proof.
  intros FA FB Fs Fu Ls Lu LA' LB' -> Sp Sq Wx Wh.
  pose proof (row_ap LA s p FA Fs Ls LA' Sp) as Ap. pose proof (row_ap LB u q FB Fu Lu LB' Sq) as Aq.
  assert (As' : ap (3 + Nat.max (length s) (length u)) 301 (-666) (Bplus mode_NE p q)
    (rdot (map it LA) (map B2R s) + rdot (map it LB) (map B2R u))
    (rdot (map ig LA) (map Rabs (map B2R s)) + rdot (map ig LB) (map Rabs (map B2R u))))
    by (eapply ap_mono; [| | |eapply ap_add; [| | | | | |exact Ap|exact Aq]]; lia).
  split; [apply (ap_fin _ _ _ _ _ _ As')|].
  eapply ap_mono; [| | |eapply ap_add; [| | | | | |apply (ap_in x 100 Wx)|eapply ap_mul; [| | | | | | |apply (ap_in h 100 Wh)|exact As']]]; lia.
Qed.

Lemma ap_nearly k G D a t g : (k <= 1000)%nat -> (D <= -500)%Z -> ap k G D a t g -> nearly k a t g.
Proof.
  intros K HD [F E Ht _]. split; [exact F|]. eapply Rle_trans; [exact E|]. pose proof (Rabs_pos t).
  apply Rplus_le_compat; [|apply bpow_le, HD]. apply Rmult_le_compat_r; [lra|]. eapply Rle_trans; [apply eps_le, K|].
  unfold u64. replace (-52)%Z with (-53 + 1)%Z by lia. rewrite bpow2_S. lra.
Qed.

Section G.
  Context {T : Type} {N : Num T}.
  Lemma lin_euler_gen (w : world T) (e : entity T) lo hi h s l r :
    d_min (e_dyn e) = no_min -> d_max (e_dyn e) = no_max -> d_sdmin (e_dyn e) = no_min -> d_sdmax (e_dyn e) = no_max ->
    d_wrap (e_dyn e) = None -> d_method (e_dyn e) = "Euler"%string -> (d_samples (e_dyn e) <= 0)%Z ->
    e_cmin e = A0 lo -> e_cmax e = A0 hi ->
    e_state e = A1 s -> length r = length s ->
    d_raw (e_dyn e) n0 (A1 s) (A1 (map (fun x => clip1 x lo hi) l)) = Ok (A1 r) ->
    Forall free s -> Forall free r -> Forall free (zipw nadd s (map (nmul h) r)) ->
    let o := entity_step w e h (AArr (A1 l)) in
    o_res o = Ok tt /\ e_state (o_entity o) = A1 (zipw nadd s (map (nmul h) r)).
  Proof.
    intros D1 D2 D3 D4 D5 D6 D7 C1 C2 Es L Rw Fs Fr Fz o.
    pose proof (clip_const lo hi l) as Cl.
    destruct (euler_list0 w e h s l r) as (R1 & _ & R3); auto.
    { rewrite C1. exact I. } { rewrite C2. exact I. }
    { rewrite C1, C2. cbn [expand]. rewrite Cl, (csd_list _ _ _ _ r L); auto; rewrite ?D1, ?D2, ?D3, ?D4; try exact I.
      cbn [expand no_min no_max]. rewrite lim_free by assumption. reflexivity. }
    { rewrite D1. exact I. } { rewrite D2. exact I. }
    split; [exact R1|]. etransitivity; [exact R3|]. rewrite D1, D2. cbn [expand no_min no_max].
    assert (Lz : length (zipw nadd s (map (nmul h) r)) = length s) by (rewrite zipw_length; rewrite ?map_length; congruence).
    rewrite <- Lz, clip_free by assumption. reflexivity.
  Qed.
End G.

Section F.
  Variable lm : libm.
  Local Hint Extern 0 (Num f64) => exact (F64 lm) : typeclass_instances.

  Lemma clip_within (x lo hi : f64) : is_finite x = true -> within 100 lo -> within 100 hi ->
    within 100 (clip1 x lo hi) /\ B2R (clip1 x lo hi) = clipR (B2R lo) (B2R hi) (B2R x).
  Proof.
    intros Fx [Fl Bl] [Fh Bh]. destruct (clip64 lm x lo hi Fx Fl Fh) as [F E]. split; [|exact E]. split; [exact F|].
    rewrite E. apply Rabs_le_inv in Bl. apply Rabs_le_inv in Bh. apply Rabs_le. unfold clipR, Rmin, Rmax.
    repeat destruct (Rle_dec _ _); lra.
  Qed.

  Lemma lin_shape (A B : list (list f64)) samples method d : linear_dyn A B samples method = Ok d ->
    d_min d = no_min /\ d_max d = no_max /\ d_sdmin d = no_min /\ d_sdmax d = no_max /\ d_wrap d = None /\ d_method d = method /\
    d_samples d = samples /\ d_raw d = linear_raw A B /\ length B = length A /\ Forall (fun r => length r = length A) A.
  Proof.
    intros E. unfold linear_dyn in E. destruct (is_rect A (length A)) eqn:R; [|discriminate]. cbn [py_assert bind] in E.
    destruct (length A =? length B)%nat eqn:L; [|discriminate]. cbn [py_assert bind] in E. injection E as <-. apply Nat.eqb_eq in L.
    repeat split; auto. unfold is_rect in R. apply Forall_forall. intros r Hr. rewrite forallb_forall in R. apply Nat.eqb_eq, R, Hr.
  Qed.

  (** The left-to-right accumulation of the model is one of the orders. *)
  Lemma dot_acc_summed r : forall s l acc, l <> [] -> length r = length s -> summed l acc ->
    summed (l ++ zipw (Bmult mode_NE) r s) (dot_acc acc r s).
  Proof.
    induction r as [|a r IH]; intros [|y s] l acc Nl L Sm; try discriminate.
    - cbn [zipw dot_acc]. rewrite app_nil_r. exact Sm.
    - cbn [zipw dot_acc].
      replace (l ++ Bmult mode_NE a y :: zipw (Bmult mode_NE) r s) with ((l ++ [Bmult mode_NE a y]) ++ zipw (Bmult mode_NE) r s)
        by (rewrite <- app_assoc; reflexivity).
      apply IH; [destruct l; discriminate|cbn in L; lia|].
      apply (sum_two _ l [Bmult mode_NE a y]); [exact Nl|discriminate|apply Permutation_refl|exact Sm|apply sum_one].
  Qed.
  Lemma dot_summed (r s : list f64) : length r = length s -> summed (zipw (Bmult mode_NE) r s) (dot r s).
  Proof.
    intros L. destruct r as [|a r], s as [|y s]; try discriminate.
    - unfold dot. cbn [dot_acc zipw]. replace (n0 : f64) with (B754_zero false : f64) by (symmetry; apply n0_num). apply sum_nil.
    - unfold dot. cbn [dot_acc zipw]. apply (dot_acc_summed r s [Bmult mode_NE a y]); [discriminate|injection L as L; exact L|].
      replace (n0 : f64) with (B754_zero false : f64) by (symmetry; apply n0_num). apply sum_zero, sum_one.
  Qed.

  Lemma linear_computes (A B : list (list f64)) : length B = length A -> Forall (fun r => length r = length A) A ->
    computes (linear_raw A B) A B.
  Proof.
    intros LB FA t s u Ls Fu. unfold linear_raw, affine_raw, matvec.
    replace (forallb (fun r => (length r =? length s)%nat) A) with true.
    2:{ symmetry. apply forallb_forall. intros r Hr. apply Nat.eqb_eq. rewrite Ls. rewrite Forall_forall in FA. auto. }
    cbn [bind]. replace (forallb (fun r => (length r =? length u)%nat) B) with true.
    2:{ symmetry. apply forallb_forall. intros r Hr. apply Nat.eqb_eq. rewrite Forall_forall in Fu. auto. }
    cbn [bind]. rewrite (bmap2_expand nadd (map (fun r => dot r s) A) (A1 (map (fun r => dot r u) B))) by (cbn; rewrite !map_length; exact LB).
    cbn [expand]. eexists. split; [reflexivity|]. rewrite zipw_length by (rewrite !map_length; congruence). rewrite map_length. split; [congruence|].
    intros i Hi. exists (dot (nth i A []) s), (dot (nth i B []) u).
    rewrite Forall_forall in FA, Fu.
    split; [apply dot_summed; rewrite Ls; apply FA, nth_In; lia|]. split; [apply dot_summed; apply Fu, nth_In; lia|].
    assert (Z : forall (l m : list f64) i, length l = length m -> (i < length l)%nat ->
      nth i (zipw nadd l m) (B754_zero false) = Bplus mode_NE (nth i l (B754_zero false)) (nth i m (B754_zero false))).
    { clear. induction l as [|a l IH]; intros [|b m] [|i] L H; try discriminate; cbn in L, H; try lia; [reflexivity|].
      cbn [zipw nth]. apply IH; lia. }
    rewrite Z by (rewrite !map_length; congruence || lia).
    assert (M : forall (C : list (list f64)) (v : list f64), (i < length C)%nat -> nth i (map (fun r => dot r v) C) (B754_zero false) = dot (nth i C []) v).
    { intros C v Hc. rewrite (nth_indep _ _ (dot [] v)) by (rewrite map_length; exact Hc). apply (map_nth (fun r => dot r v)). }
    rewrite !M by lia. reflexivity.
  Qed.

  (** Matrices whose entries approximate [it] with one rounding. *)
  Lemma lin_items (w : world f64) (e : entity f64) (MA MB : list (list item)) lo hi h s l :
    d_min (e_dyn e) = no_min -> d_max (e_dyn e) = no_max -> d_sdmin (e_dyn e) = no_min -> d_sdmax (e_dyn e) = no_max ->
    d_wrap (e_dyn e) = None -> d_method (e_dyn e) = "Euler"%string -> (d_samples (e_dyn e) <= 0)%Z ->
    e_cmin e = A0 lo -> e_cmax e = A0 hi -> within 100 lo -> within 100 hi -> within 100 h ->
    computes (d_raw (e_dyn e)) (map (map iv) MA) (map (map iv) MB) ->
    length MA = length s -> length MB = length s -> Forall (fun r => length r = length s) MA -> Forall (fun r => length r = length l) MB ->
    Forall (Forall entry) MA -> Forall (Forall entry) MB ->
    (length s <= 100)%nat -> (length l <= 100)%nat ->
    Forall (within 100) s -> Forall (fun f : f64 => is_finite f = true) l -> e_state e = A1 s ->
    let o := entity_step w e h (AArr (A1 l)) in
    let u := map (fun f => clipR (B2R lo) (B2R hi) (B2R f)) l in
    exists s', o_res o = Ok tt /\ e_state (o_entity o) = A1 s' /\ length s' = length s /\
    forall i, (i < length s)%nat ->
      nearly (Nat.max (length s) (length l) + 5) (nth i s' (B754_zero false))
        (nth i (map B2R s) 0 + B2R h * (rdot (map it (nth i MA [])) (map B2R s) + rdot (map it (nth i MB [])) u))
        (Rabs (nth i (map B2R s) 0) + Rabs (B2R h) * (rdot (map ig (nth i MA [])) (map Rabs (map B2R s)) + rdot (map ig (nth i MB [])) (map Rabs u))).
  Proof.
    intros D1 D2 D3 D4 D5 D6 D7 C1 C2 Wlo Whi Wh Cp LA LB FA FB EA EB Ls Ll Ws Fl Es o u.
    set (c := map (fun x => clip1 x lo hi) l).
    assert (Lc : length c = length l) by apply map_length.
    assert (Wc : Forall (within 100) c).
    { unfold c. apply Forall_map. eapply Forall_impl; [|exact Fl]. intros a Fa. apply clip_within; assumption. }
    assert (Uc : map B2R c = u).
    { unfold c, u. rewrite map_map. apply map_ext_in. intros a Ha. rewrite Forall_forall in Fl. apply clip_within; auto. }
    destruct (Cp n0 s c) as (r & Rr & Lr & Ri).
    { rewrite map_length. congruence. }
    { apply Forall_map. eapply Forall_impl; [|exact FB]. intros a Ha. rewrite map_length, Lc. exact Ha. }
    assert (Mi : forall (M : list (list item)) i, nth i (map (map iv) M) [] = map iv (nth i M [])).
    { intros M i. change (@nil f64) with (map iv []). apply map_nth. }
    assert (Comp : forall i, (i < length s)%nat -> is_finite (nth i r (B754_zero false)) = true /\
      ap (Nat.max (length s) (length l) + 5) 402 (-500)
        (Bplus mode_NE (nth i s (B754_zero false)) (Bmult mode_NE h (nth i r (B754_zero false))))
        (nth i (map B2R s) 0 + B2R h * (rdot (map it (nth i MA [])) (map B2R s) + rdot (map it (nth i MB [])) u))
        (Rabs (nth i (map B2R s) 0) + Rabs (B2R h) * (rdot (map ig (nth i MA [])) (map Rabs (map B2R s)) + rdot (map ig (nth i MB [])) (map Rabs u)))).
    { intros i Hi. destruct (Ri i Hi) as (p & q & Sp & Sq & ->). rewrite Mi in Sp, Sq.
      replace (nth i (map B2R s) 0) with (B2R (nth i s (B754_zero false))) by (change 0 with (B2R (B754_zero false : f64)); rewrite map_nth; reflexivity).
      rewrite Forall_forall in FA, FB, EA, EB.
      rewrite <- Uc. apply comp_ap with (m := Nat.max (length s) (length l)); auto; try (rewrite Lc; auto).
      - apply EA, nth_In. lia.
      - apply EB, nth_In. lia.
      - apply FA, nth_In. lia.
      - apply FB, nth_In. lia.
      - rewrite Forall_forall in Ws. apply Ws, nth_In, Hi. }
    assert (Zn : forall i, (i < length s)%nat -> nth i (zipw nadd s (map (nmul h) r)) (B754_zero false) =
      Bplus mode_NE (nth i s (B754_zero false)) (Bmult mode_NE h (nth i r (B754_zero false)))).
    { clear -Lr. revert r Lr. induction s as [|a s IH]; intros [|b r] Lr [|i] Hi; try discriminate; cbn in Hi; try lia; [reflexivity|].
      cbn [map zipw nth]. apply IH; [cbn in Lr; lia|lia]. }
    assert (Lz : length (zipw nadd s (map (nmul h) r)) = length s) by (rewrite zipw_length; rewrite ?map_length; congruence).
    assert (Ff : forall v : list f64, (forall i, (i < length v)%nat -> is_finite (nth i v (B754_zero false)) = true) -> Forall free v).
    { intros v Hv. apply Forall_forall. intros x Hx. destruct (In_nth _ _ (B754_zero false) Hx) as (i & Hi & <-). apply fin_free, Hv, Hi. }
    destruct (lin_euler_gen w e lo hi h s l r D1 D2 D3 D4 D5 D6 D7 C1 C2 Es Lr Rr) as [R1 R2].
    - apply Forall_forall. intros x Hx. rewrite Forall_forall in Ws. apply fin_free, Ws, Hx.
    - apply Ff. intros i Hi. apply Comp. congruence.
    - apply Ff. rewrite Lz. intros i Hi. rewrite Zn by exact Hi. eapply ap_fin, Comp, Hi.
    - eexists. split; [exact R1|]. split; [exact R2|]. split; [exact Lz|]. intros i Hi. rewrite Zn by exact Hi.
      eapply ap_nearly; [| |apply Comp, Hi]; lia.
  Qed.

  Definition exactly (a : f64) : item := {| iv := a; it := B2R a; ig := Rabs (B2R a) |}.
  Lemma exactly_entry a : within 100 a -> entry (exactly a).
  Proof. intros W. unfold entry. cbn. eapply ap_mono; [| | |apply (ap_in a 100 W)]; lia. Qed.
  Lemma exactly_iv M : map (map iv) (map (map exactly) M) = M.
  Proof. rewrite map_map. rewrite <- (map_id M) at 2. apply map_ext. intros r. rewrite map_map. apply map_id. Qed.

  Lemma lin_round (w : world f64) (e : entity f64) (A B : list (list f64)) samples d lo hi h s l :
    linear_dyn A B samples "Euler" = Ok d -> (samples <= 0)%Z ->
    d_min (e_dyn e) = d_min d -> d_max (e_dyn e) = d_max d -> d_sdmin (e_dyn e) = d_sdmin d -> d_sdmax (e_dyn e) = d_sdmax d ->
    d_wrap (e_dyn e) = d_wrap d -> d_method (e_dyn e) = d_method d -> d_samples (e_dyn e) = d_samples d ->
    computes (d_raw (e_dyn e)) A B ->
    e_cmin e = A0 lo -> e_cmax e = A0 hi -> within 100 lo -> within 100 hi -> within 100 h ->
    Forall (Forall (within 100)) A -> Forall (Forall (within 100)) B ->
    length A = length s -> Forall (fun r => length r = length l) B ->
    (length s <= 100)%nat -> (length l <= 100)%nat ->
    Forall (within 100) s -> Forall (fun f : f64 => is_finite f = true) l -> e_state e = A1 s ->
    let o := entity_step w e h (AArr (A1 l)) in
    exists s', o_res o = Ok tt /\ e_state (o_entity o) = A1 s' /\
      lin_agrees (map (map B2R) A) (map (map B2R) B) (B2R h) (map B2R s) (map (fun f => clipR (B2R lo) (B2R hi) (B2R f)) l) s'.
  Proof.
    intros E Sa Q1 Q2 Q3 Q4 Q5 Q6 Q7 Cp C1 C2 Wlo Whi Wh WA WB LA FB Ls Ll Ws Fl Es o.
    destruct (lin_shape _ _ _ _ _ E) as (D1 & D2 & D3 & D4 & D5 & D6 & D7 & _ & LB & FA).
    rewrite D1 in Q1. rewrite D2 in Q2. rewrite D3 in Q3. rewrite D4 in Q4. rewrite D5 in Q5. rewrite D6 in Q6. rewrite D7 in Q7.
    destruct (lin_items w e (map (map exactly) A) (map (map exactly) B) lo hi h s l) as (s' & R1 & R2 & R3 & R4); auto.
    - rewrite Q7. exact Sa.
    - rewrite !exactly_iv. exact Cp.
    - rewrite map_length. exact LA.
    - rewrite map_length. congruence.
    - apply Forall_map. eapply Forall_impl; [|exact FA]. intros r Hr. rewrite map_length. congruence.
    - apply Forall_map. eapply Forall_impl; [|exact FB]. intros r Hr. rewrite map_length. exact Hr.
    - apply Forall_map. eapply Forall_impl; [|exact WA]. intros r Hr. apply Forall_map. eapply Forall_impl; [|exact Hr]. apply exactly_entry.
    - apply Forall_map. eapply Forall_impl; [|exact WB]. intros r Hr. apply Forall_map. eapply Forall_impl; [|exact Hr]. apply exactly_entry.
    - exists s'. split; [exact R1|]. split; [exact R2|]. split; [rewrite map_length; exact R3|].
      rewrite !map_length. intros i Hi. specialize (R4 i Hi).
      assert (Mi : forall (M : list (list f64)) (f : item -> R), map f (nth i (map (map exactly) M) []) = map (fun a => f (exactly a)) (nth i M [])).
      { intros M f. replace (nth i (map (map exactly) M) []) with (map exactly (nth i M [])) by (symmetry; apply (map_nth (map exactly) M [])).
        apply map_map. }
      assert (Ni : forall M : list (list f64), nth i (map (map B2R) M) [] = map B2R (nth i M [])) by (intros M; apply (map_nth (map B2R) M [])).
      rewrite !Mi in R4. cbn [exactly it ig] in R4. rewrite !Ni, (map_map B2R Rabs (nth i A [])), (map_map B2R Rabs (nth i B [])). exact R4.
  Qed.

  Lemma lin_round_step (w : world f64) (e : entity f64) (A B : list (list f64)) samples lo hi h s l :
    linear_dyn A B samples "Euler" = Ok (e_dyn e) -> (samples <= 0)%Z ->
    e_cmin e = A0 lo -> e_cmax e = A0 hi -> within 100 lo -> within 100 hi -> within 100 h ->
    Forall (Forall (within 100)) A -> Forall (Forall (within 100)) B ->
    length A = length s -> Forall (fun r => length r = length l) B ->
    (length s <= 100)%nat -> (length l <= 100)%nat ->
    Forall (within 100) s -> Forall (fun f : f64 => is_finite f = true) l -> e_state e = A1 s ->
    let o := entity_step w e h (AArr (A1 l)) in
    exists s', o_res o = Ok tt /\ e_state (o_entity o) = A1 s' /\
      lin_agrees (map (map B2R) A) (map (map B2R) B) (B2R h) (map B2R s) (map (fun f => clipR (B2R lo) (B2R hi) (B2R f)) l) s'.
  Proof.
    intros E Sa C1 C2 Wlo Whi Wh WA WB LA FB Ls Ll Ws Fl Es o.
    destruct (lin_shape _ _ _ _ _ E) as (_ & _ & _ & _ & _ & _ & _ & Rw & LB & FA).
    eapply lin_round; eauto. rewrite Rw. apply linear_computes; assumption.
  Qed.
End F.
