(** Interpolation, oddness and continuity of the table lookups over exact reals. *)
From Coq Require Import List ZArith Reals Lra Lia Bool.
From Flocq Require Import Core.Raux.
From Coquelicot Require Import Coquelicot.
From Verif Require Import PyBase Num XReal AeroTables Aero SpecTables SpecAero AeroLemmas.
Import List ListNotations.
Local Open Scope R_scope.
Local Hint Extern 0 (Num xr) => exact (XR Fin) : typeclass_instances.

(** * The interpolant as a function *)
Definition cell_of (lo hi : Z) (s : R) : Z := Z.max lo (Z.min (hi - 1) (Zfloor s)).
Definition interp (lo hi : Z) (t : Z -> R) (s : R) : R := on_cell t (cell_of lo hi s) s.

Lemma cell_of_in lo hi s : (lo < hi)%Z -> in_cell lo hi (cell_of lo hi s) s.
Proof.
  intros H. unfold in_cell, cell_of. split; [lia|].
  pose proof (Zfloor_lb s). pose proof (Zfloor_ub s). split.
  - destruct (Z.max_spec lo (Z.min (hi - 1) (Zfloor s))) as [[A ->]|[A ->]]; [right|left; reflexivity].
    apply Rle_trans with (IZR (Zfloor s)); [apply IZR_le; lia|assumption].
  - destruct (Z.eq_dec (Z.max lo (Z.min (hi - 1) (Zfloor s)) + 1) hi) as [E|E]; [left; exact E|right].
    apply Rle_trans with (IZR (Zfloor s + 1)); [rewrite plus_IZR; lra|apply IZR_le; lia].
Qed.

Lemma on_cell_adj t j s : s = IZR (j + 1) -> on_cell t j s = on_cell t (j + 1) s.
Proof.
  intros ->. unfold on_cell. rewrite plus_IZR. ring.
Qed.

Lemma on_cell_unique lo hi t s j j' :
  in_cell lo hi j s -> in_cell lo hi j' s -> on_cell t j s = on_cell t j' s.
Proof.
  assert (Hw : forall j j', (j < j')%Z -> in_cell lo hi j s -> in_cell lo hi j' s ->
            on_cell t j s = on_cell t j' s).
  { clear j j'. intros j j' Hlt [H1 [H2 H3]] [H1' [H2' H3']].
    destruct H2' as [H2'|H2']; [lia|]. destruct H3 as [H3|H3]; [lia|].
    assert (j' <= j + 1)%Z by (apply le_IZR; lra).
    assert (j' = j + 1)%Z by lia. subst j'. apply on_cell_adj. lra. }
  intros H H'. destruct (Z.lt_trichotomy j j') as [L|[->|L]].
  - apply Hw; assumption.
  - reflexivity.
  - symmetry. apply Hw; assumption.
Qed.

Lemma on_cell_interp lo hi t s j : in_cell lo hi j s -> on_cell t j s = interp lo hi t s.
Proof.
  intros H. apply (on_cell_unique lo hi); [exact H|]. apply cell_of_in. destruct H. lia.
Qed.

Lemma interp_one lo t s : interp lo (lo + 1) t s = t lo + (s - IZR lo) * (t (lo + 1)%Z - t lo).
Proof.
  unfold interp, cell_of. replace (Z.max lo _) with lo by lia. reflexivity.
Qed.

Lemma interp_kink lo hi t s : (lo < hi)%Z ->
  interp lo (hi + 1) t s
  = interp lo hi t s + (t (hi + 1)%Z - 2 * t hi + t (hi - 1)%Z) * Rmax 0 (s - IZR hi).
Proof.
  intros H. destruct (Rle_lt_dec s (IZR hi)) as [Hs|Hs].
  - rewrite Rmax_left by lra.
    pose proof (cell_of_in lo hi s H) as [H1 [H2 H3]].
    unfold interp at 2. rewrite (on_cell_interp lo (hi + 1)); [ring|].
    split; [lia|]. split; [exact H2|]. right. destruct H3 as [H3|H3]; [rewrite H3|]; lra.
  - rewrite Rmax_right by lra.
    rewrite <- (on_cell_interp lo (hi + 1) t s hi).
    2: { split; [lia|]. split; [right; lra|left; reflexivity]. }
    rewrite <- (on_cell_interp lo hi t s (hi - 1)).
    2: { split; [lia|]. split; [right; rewrite minus_IZR; lra|left; lia]. }
    unfold on_cell. replace (hi - 1 + 1)%Z with hi by lia. rewrite minus_IZR. ring.
Qed.

(** * Continuity *)
Lemma continuous_Rmax0 (U : UniformSpace) (f : U -> R) x :
  continuous f x -> continuous (fun u => Rmax 0 (f u)) x.
Proof.
  intros H. apply (continuous_comp f (fun y => Rmax 0 y)); [exact H|].
  apply continuous_ext with (f := fun y => (y + Rabs y) * / 2).
  - intros y. unfold Rmax, Rabs. destruct (Rle_dec 0 y), (Rcase_abs y); lra.
  - apply (continuous_mult (K := R_AbsRing)); [|apply continuous_const].
    apply (continuous_plus (V := R_NormedModule)); [apply continuous_id|].
    apply continuity_pt_filterlim. apply Rcontinuity_abs.
Qed.

Lemma interp_continuous (U : UniformSpace) lo hi (F : Z -> U -> R) (E : U -> R) x :
  (lo < hi)%Z -> (forall m, continuous (F m) x) -> continuous E x ->
  continuous (fun u => interp lo hi (fun m => F m u) (E u)) x.
Proof.
  intros Hlt HF HE.
  assert (Hn : exists n, hi = (lo + 1 + Z.of_nat n)%Z)
    by (exists (Z.to_nat (hi - lo - 1)); lia).
  destruct Hn as [n ->]. clear Hlt. induction n as [|n IH].
  - replace (lo + 1 + Z.of_nat 0)%Z with (lo + 1)%Z by lia.
    apply continuous_ext with
      (f := fun u => F lo u + (E u - IZR lo) * (F (lo + 1)%Z u - F lo u)).
    { intros u. rewrite interp_one. reflexivity. }
    apply (continuous_plus (V := R_NormedModule)); [apply HF|].
    apply (continuous_mult (K := R_AbsRing)).
    + apply (continuous_minus (V := R_NormedModule)); [exact HE|apply continuous_const].
    + apply (continuous_minus (V := R_NormedModule)); apply HF.
  - set (h := (lo + 1 + Z.of_nat n)%Z) in *.
    replace (lo + 1 + Z.of_nat (S n))%Z with (h + 1)%Z by lia.
    apply continuous_ext with
      (f := fun u => interp lo h (fun m => F m u) (E u)
              + (F (h + 1)%Z u - 2 * F h u + F (h - 1)%Z u) * Rmax 0 (E u - IZR h)).
    { intros u. rewrite interp_kink by lia. reflexivity. }
    apply (continuous_plus (V := R_NormedModule)); [exact IH|].
    apply (continuous_mult (K := R_AbsRing)).
    + apply (continuous_plus (V := R_NormedModule)); [|apply HF].
      apply (continuous_minus (V := R_NormedModule)); [apply HF|].
      apply (continuous_mult (K := R_AbsRing)); [apply continuous_const|apply HF].
    + apply continuous_Rmax0.
      apply (continuous_minus (V := R_NormedModule)); [exact HE|apply continuous_const].
Qed.

Definition interp2 (lo hi lo' hi' : Z) (t : Z -> Z -> R) (s e : R) : R :=
  interp lo' hi' (fun m => interp lo hi (fun k => t k m) s) e.

Lemma interpolates2_fun f da db lo hi lo' hi' t :
  (lo < hi)%Z -> (lo' < hi')%Z -> interpolates2 f da db lo hi lo' hi' t ->
  forall a b, f (Fin a) (Fin b) = Ok (Fin (interp2 lo hi lo' hi' t (a / da) (b / db))).
Proof.
  intros H H' Hf a b.
  rewrite (Hf a b (cell_of lo hi (a / da)) (cell_of lo' hi' (b / db))); [reflexivity| |];
    apply cell_of_in; assumption.
Qed.

Lemma interp2_continuous (U : UniformSpace) lo hi lo' hi' t (S E : U -> R) x :
  (lo < hi)%Z -> (lo' < hi')%Z -> continuous S x -> continuous E x ->
  continuous (fun u => interp2 lo hi lo' hi' t (S u) (E u)) x.
Proof.
  intros H H' HS HE. unfold interp2.
  apply (interp_continuous U lo' hi' (fun m u => interp lo hi (fun k => t k m) (S u)) E x H').
  - intros m. apply (interp_continuous U lo hi (fun k _ => t k m) S x H); [|exact HS].
    intros k. apply continuous_const.
  - exact HE.
Qed.

Lemma continuous_div_const (U : UniformSpace) (f : U -> R) (c : R) x :
  continuous f x -> continuous (fun u => f u / c) x.
Proof.
  intros H. apply (continuous_mult (K := R_AbsRing)); [exact H|apply continuous_const].
Qed.

(** * The lookups *)
Lemma cx_interp : interpolates2 cx 5 12 (-2) 9 (-2) 2 (coeff tab_cx (-2) (-2)).
Proof.
  intros a b j m Hj Hm. unfold cx. apply lookup_el; [vm_compute; reflexivity| |]; assumption.
Qed.
Lemma cm_interp : interpolates2 cm 5 12 (-2) 9 (-2) 2 (coeff tab_cm (-2) (-2)).
Proof.
  intros a b j m Hj Hm. unfold cm. apply lookup_el; [vm_compute; reflexivity| |]; assumption.
Qed.
Lemma dlda_interp : interpolates2 dlda 5 10 (-2) 9 (-3) 3 (coeff tab_dlda (-2) (-3)).
Proof.
  intros a b j m Hj Hm. unfold dlda. apply lookup_beta; [vm_compute; reflexivity| |]; assumption.
Qed.
Lemma dldr_interp : interpolates2 dldr 5 10 (-2) 9 (-3) 3 (coeff tab_dldr (-2) (-3)).
Proof.
  intros a b j m Hj Hm. unfold dldr. apply lookup_beta; [vm_compute; reflexivity| |]; assumption.
Qed.
Lemma dnda_interp : interpolates2 dnda 5 10 (-2) 9 (-3) 3 (coeff tab_dnda (-2) (-3)).
Proof.
  intros a b j m Hj Hm. unfold dnda. apply lookup_beta; [vm_compute; reflexivity| |]; assumption.
Qed.
Lemma dndr_interp : interpolates2 dndr 5 10 (-2) 9 (-3) 3 (coeff tab_dndr (-2) (-3)).
Proof.
  intros a b j m Hj Hm. unfold dndr. apply lookup_beta; [vm_compute; reflexivity| |]; assumption.
Qed.

(** Odd tables. *)
Lemma on_cell_opp t j s : on_cell (fun i => - t i) j s = - on_cell t j s.
Proof. unfold on_cell. ring. Qed.

Lemma on_cell_mirror t j s :
  on_cell (fun i => t (- i)%Z) j s = on_cell t (- j - 1) (- s).
Proof.
  unfold on_cell. replace (- j - 1 + 1)%Z with (- j)%Z by lia.
  replace (- (j + 1))%Z with (- j - 1)%Z by lia.
  rewrite minus_IZR, opp_IZR. ring.
Qed.

Lemma on_cell_ext t t' j s : t j = t' j -> t (j + 1)%Z = t' (j + 1)%Z ->
  on_cell t j s = on_cell t' j s.
Proof. intros H H'. unfold on_cell. rewrite H, H'. reflexivity. Qed.

Lemma odd_lookup tab k m s be :
  (forall i, coeff tab (-2) 0 i 0 = 0) ->
  in_cell (-6) 6 m (be / 5) ->
  exists m', in_cell 0 6 m' (Rabs be / 5) /\
    on_cell2 (coeff tab (-2) 0) k m' s (Rabs be / 5) * IZR (rsign be)
    = on_cell2 (odd_coeff tab (-2)) k m s (be / 5).
Proof.
  intros H0 [Hm [Hl Hr]].
  assert (Hz : forall s, on_cell (fun j' => coeff tab (-2) 0 j' 0) k s = 0).
  { intros s'. unfold on_cell. rewrite !H0. ring. }
  assert (Hz' : forall s, on_cell (fun j' => odd_coeff tab (-2) j' 0) k s = 0).
  { intros s'. unfold on_cell, odd_coeff. cbn. rewrite !H0. ring. }
  assert (Hpos : forall j s, (0 <= j)%Z ->
    on_cell (fun j' => odd_coeff tab (-2) j' j) k s = on_cell (fun j' => coeff tab (-2) 0 j' j) k s).
  { intros j s' Hj. unfold on_cell, odd_coeff. destruct (Z.ltb_spec j 0); [lia|]. reflexivity. }
  assert (Hneg : forall j s, (j <= 0)%Z ->
    on_cell (fun j' => odd_coeff tab (-2) j' j) k s = - on_cell (fun j' => coeff tab (-2) 0 j' (- j)) k s).
  { intros j s' Hj. unfold on_cell, odd_coeff. destruct (Z.ltb_spec j 0); [ring|].
    assert (j = 0)%Z by lia. subst j. cbn. rewrite !H0. ring. }
  unfold on_cell2.
  destruct (rsign_cases be) as [[Hb E]|[[Hb E]|[Hb E]]]; rewrite E.
  - rewrite Rabs_left by lra.
    destruct (Z_lt_le_dec m 0) as [Hm0|Hm0].
    + exists (- m - 1)%Z. split.
      * split; [lia|]. split.
        { destruct Hr as [Hr|Hr]; [lia|]. right.
          rewrite plus_IZR in Hr. rewrite minus_IZR, opp_IZR. lra. }
        { destruct Hl as [Hl|Hl]; [left; lia|right].
          replace (- m - 1 + 1)%Z with (- m)%Z by lia. rewrite opp_IZR. lra. }
      * rewrite (on_cell_ext _ (fun j => - (fun j => on_cell (fun j' => coeff tab (-2) 0 j' j) k s) (- j)%Z) m).
        2, 3: apply Hneg; lia.
        rewrite on_cell_opp.
        rewrite (on_cell_mirror (fun j => on_cell (fun j' => coeff tab (-2) 0 j' j) k s)).
        replace (- be / 5) with (- (be / 5)) by field. ring.
    + exfalso. destruct Hl as [Hl|Hl]; [lia|].
      apply IZR_le in Hm0. lra.
  - exists 0%Z. subst be. rewrite Rabs_R0. split.
    + split; [lia|]. split; [left; reflexivity|right; cbn; lra].
    + replace (0 / 5) with 0 in * by field. rewrite Rmult_0_r.
      assert (Hmm : m = 0%Z \/ m = (-1)%Z).
      { assert (m <= 0)%Z by (destruct Hl as [Hl|Hl]; [lia|apply le_IZR; lra]).
        assert (0 <= m + 1)%Z by (destruct Hr as [Hr|Hr]; [lia|apply le_IZR; lra]). lia. }
      unfold on_cell at 1. destruct Hmm as [ -> | -> ].
      * rewrite Hz'. ring.
      * replace (-1 + 1)%Z with 0%Z by lia. rewrite Hz'. ring.
  - rewrite Rabs_pos_eq by lra.
    destruct (Z_lt_le_dec m 0) as [Hm0|Hm0].
    + exfalso. destruct Hr as [Hr|Hr]; [lia|].
      assert (m + 1 <= 0)%Z as Hm1 by lia. apply IZR_le in Hm1. lra.
    + exists m. split.
      * split; [lia|]. split; [|exact Hr]. destruct Hl as [Hl|Hl]; [lia|right; exact Hl].
      * rewrite Rmult_1_r. apply on_cell_ext; symmetry; apply Hpos; lia.
Qed.

Lemma zero_column tab n :
  forallb (fun i => Z.eqb (nth 0 (nth i tab []) 0%Z) 0) (seq 0 n) = true ->
  (length tab <= n)%nat -> forall i, coeff tab (-2) 0 i 0 = 0.
Proof.
  intros H Hl i. unfold coeff, entry. cbn [Z.sub Z.opp Z.add Z.to_nat].
  set (k := Z.to_nat (i - -2)).
  assert (E : nth 0 (nth k tab []) 0%Z = 0%Z).
  { destruct (Nat.lt_ge_cases k n) as [L|L].
    - rewrite forallb_forall in H. apply Z.eqb_eq. apply H. apply in_seq. lia.
    - rewrite (nth_overflow tab) by lia. reflexivity. }
  change (nth (Z.to_nat (0 - 0)) (nth k tab []) 0%Z) with (nth 0 (nth k tab []) 0%Z).
  rewrite E. field.
Qed.

Lemma cl_interp : interpolates2 cl 5 5 (-2) 9 (-6) 6 (odd_coeff tab_cl (-2)).
Proof.
  intros a b j m Hj Hm.
  destruct (odd_lookup tab_cl j m (a / 5) b) as [m' [Hm' E]]; [|exact Hm|].
  - apply (zero_column tab_cl 12); vm_compute; reflexivity || lia.
  - rewrite <- E. unfold cl. apply lookup_odd; [vm_compute; reflexivity| |]; assumption.
Qed.
Lemma cn_interp : interpolates2 cn 5 5 (-2) 9 (-6) 6 (odd_coeff tab_cn (-2)).
Proof.
  intros a b j m Hj Hm.
  destruct (odd_lookup tab_cn j m (a / 5) b) as [m' [Hm' E]]; [|exact Hm|].
  - apply (zero_column tab_cn 12); vm_compute; reflexivity || lia.
  - rewrite <- E. unfold cn. apply lookup_odd; [vm_compute; reflexivity| |]; assumption.
Qed.
