(** Both number instances satisfy the order laws; consequences for clip. *)
From Coq Require Import ZArith Reals Bool Lra.
From Flocq Require Import Core.Core IEEE754.BinarySingleNaN.
From Verif Require Import PyBase Num XReal Float64.

Global Instance XR_ord (r32 : R -> xr) : @NumOrd xr (XR r32).
Proof.
  constructor; simpl.
  - intros [] []; simpl; congruence.
  - intros [] []; simpl; congruence.
  - intros [] []; simpl; congruence.
  - intros [] []; simpl; congruence.
  - intros [] []; simpl; try congruence; intros _ _.
    destruct (Rle_bool_spec r r0), (Rlt_bool_spec r0 r); simpl; try reflexivity; lra.
  - intros [] []; simpl; try congruence.
    destruct (Rlt_bool_spec r r0), (Rlt_bool_spec r0 r); try congruence; lra.
  - intros [] [] []; simpl; try congruence.
    destruct (Rle_bool_spec r r0), (Rle_bool_spec r0 r1), (Rle_bool_spec r r1);
      try congruence; lra.
  - intros [] []; simpl; try reflexivity.
    destruct (Req_bool_spec r r0), (Rle_bool_spec r r0), (Rle_bool_spec r0 r);
      simpl; try reflexivity; lra.
  - intros []; simpl; congruence.
  - intros []; simpl; congruence.
  - reflexivity.
Qed.

Lemma Bcompare_cases (x y : f64) :
  is_nan x = false -> is_nan y = false -> exists c, Bcompare x y = Some c.
Proof.
  destruct x as [s|s| |s m e H], y as [s'|s'| |s' m' e' H']; simpl; try discriminate; intros _ _;
    try (destruct s); try (destruct s'); unfold Bcompare; simpl; eauto;
    destruct (e ?= e')%Z; eauto.
Qed.

(** Extended real value used only to order non-NaN floats. *)
Definition f64_key (x : f64) : xr :=
  match x with
  | B754_nan => NaN
  | B754_infinity s => if s then NInf else PInf
  | _ => Fin (B2R x)
  end.

Lemma f64_fin_key (x : f64) : is_finite x = true -> f64_key x = Fin (B2R x).
Proof. destruct x; simpl; congruence. Qed.

Lemma Bltb_key (x y : f64) : Bltb x y = xltb (f64_key x) (f64_key y).
Proof.
  destruct (is_finite x) eqn:Fx, (is_finite y) eqn:Fy.
  - rewrite Bltb_correct by assumption. rewrite !f64_fin_key by assumption. reflexivity.
  - destruct x as [s|s| |s m e H], y as [s'|s'| |s' m' e' H'];
      try discriminate; try (destruct s); try (destruct s'); reflexivity.
  - destruct x as [s|s| |s m e H], y as [s'|s'| |s' m' e' H'];
      try discriminate; try (destruct s); try (destruct s'); reflexivity.
  - destruct x as [s|s| |s m e H], y as [s'|s'| |s' m' e' H'];
      try discriminate; try (destruct s); try (destruct s'); reflexivity.
Qed.

Lemma Bleb_key (x y : f64) : Bleb x y = xleb (f64_key x) (f64_key y).
Proof.
  destruct (is_finite x) eqn:Fx, (is_finite y) eqn:Fy.
  - rewrite Bleb_correct by assumption. rewrite !f64_fin_key by assumption. reflexivity.
  - destruct x as [s|s| |s m e H], y as [s'|s'| |s' m' e' H'];
      try discriminate; try (destruct s); try (destruct s'); reflexivity.
  - destruct x as [s|s| |s m e H], y as [s'|s'| |s' m' e' H'];
      try discriminate; try (destruct s); try (destruct s'); reflexivity.
  - destruct x as [s|s| |s m e H], y as [s'|s'| |s' m' e' H'];
      try discriminate; try (destruct s); try (destruct s'); reflexivity.
Qed.

Lemma Beqb_key (x y : f64) : Beqb x y = xeqb (f64_key x) (f64_key y).
Proof.
  destruct (is_finite x) eqn:Fx, (is_finite y) eqn:Fy.
  - rewrite Beqb_correct by assumption. rewrite !f64_fin_key by assumption. reflexivity.
  - destruct x as [s|s| |s m e H], y as [s'|s'| |s' m' e' H'];
      try discriminate; try (destruct s); try (destruct s'); reflexivity.
  - destruct x as [s|s| |s m e H], y as [s'|s'| |s' m' e' H'];
      try discriminate; try (destruct s); try (destruct s'); reflexivity.
  - destruct x as [s|s| |s m e H], y as [s'|s'| |s' m' e' H'];
      try discriminate; try (destruct s); try (destruct s'); reflexivity.
Qed.

Lemma is_nan_key (x : f64) : is_nan x = xisnan (f64_key x).
Proof. destruct x as [s|s| |s m e H]; try (destruct s); reflexivity. Qed.

Global Instance F64_ord (lm : libm) : @NumOrd f64 (F64 lm).
Proof.
  pose proof (XR_ord Fin) as [H1 H2 H3 H4 H5 H6 H7 H8 H9 H10 H11]. simpl in *.
  constructor; simpl; intros *; rewrite ?Bltb_key, ?Bleb_key, ?Beqb_key, ?is_nan_key; auto.
  - apply H7.
  - destruct x as [s|s| |s m e H]; try (destruct s); simpl; congruence.
Qed.

Section Clip.
  Context {T : Type} {N : Num T} {O : NumOrd T}.

  Lemma ltb_irrefl (x : T) : nltb x x = false.
  Proof. destruct (nltb x x) eqn:E; [|reflexivity]. rewrite <- E. apply ltb_asym, E. Qed.

  Lemma leb_not_nan (x y : T) : nleb x y = true -> nisnan x = false /\ nisnan y = false.
  Proof.
    intros H. split.
    - destruct (nisnan x) eqn:E; auto. rewrite nan_leb_l in H; congruence.
    - destruct (nisnan y) eqn:E; auto. rewrite nan_leb_r in H; congruence.
  Qed.

  Lemma ltb_not_nan (x y : T) : nltb x y = true -> nisnan x = false /\ nisnan y = false.
  Proof.
    intros H. split.
    - destruct (nisnan x) eqn:E; auto. rewrite nan_ltb_l in H; congruence.
    - destruct (nisnan y) eqn:E; auto. rewrite nan_ltb_r in H; congruence.
  Qed.

  Lemma leb_refl (x : T) : nisnan x = false -> nleb x x = true.
  Proof. intros H. rewrite leb_ltb by assumption. rewrite ltb_irrefl. reflexivity. Qed.

  Lemma ltb_leb (x y : T) : nltb x y = true -> nleb x y = true.
  Proof.
    intros H. destruct (ltb_not_nan _ _ H).
    rewrite leb_ltb by assumption. rewrite ltb_asym; auto.
  Qed.

  Lemma leb_nltb (x y : T) : nleb x y = true -> nltb y x = false.
  Proof.
    intros H. destruct (leb_not_nan _ _ H).
    rewrite leb_ltb in H by assumption. destruct (nltb y x); simpl in *; congruence.
  Qed.

  Lemma nltb_leb (x y : T) : nisnan x = false -> nisnan y = false ->
    nltb y x = false -> nleb x y = true.
  Proof. intros. rewrite leb_ltb by assumption. rewrite H1. reflexivity. Qed.

  Lemma eqb_refl (x : T) : nisnan x = false -> neqb x x = true.
  Proof. intros. rewrite eqb_leb, leb_refl by assumption. reflexivity. Qed.

  (** clip of a non-NaN value between ordered limits is between the limits *)
  Lemma clip1_bounds (x lo hi : T) :
    nleb lo hi = true ->
    nisnan (clip1 x lo hi) = true \/
    (nleb lo (clip1 x lo hi) = true /\ nleb (clip1 x lo hi) hi = true).
  Proof.
    intros L. destruct (leb_not_nan _ _ L) as [Nl Nh].
    unfold clip1, np_max_clip, np_min_clip.
    destruct (nisnan x) eqn:Nx.
    - rewrite Nx. left; assumption.
    - right. destruct (nltb lo x) eqn:E1.
      + rewrite Nx. destruct (nltb x hi) eqn:E2.
        * split; apply ltb_leb; assumption.
        * split; [assumption | apply leb_refl; assumption].
      + rewrite Nl. destruct (nltb lo hi) eqn:E2.
        * split; [apply leb_refl | ]; assumption.
        * split; [assumption | apply leb_refl; assumption].
  Qed.

  Lemma clip1_nan_iff (x lo hi : T) :
    nleb lo hi = true -> nisnan (clip1 x lo hi) = nisnan x.
  Proof.
    intros L. destruct (leb_not_nan _ _ L) as [Nl Nh].
    unfold clip1, np_max_clip, np_min_clip.
    destruct (nisnan x) eqn:Nx.
    - rewrite Nx. assumption.
    - destruct (nltb lo x) eqn:E1.
      + rewrite Nx. destruct (nltb x hi); assumption.
      + rewrite Nl. destruct (nltb lo hi); assumption.
  Qed.

  (** an in-range value is returned up to numerical equality *)
  Lemma clip1_inside (x lo hi : T) :
    nleb lo x = true -> nleb x hi = true -> neqb (clip1 x lo hi) x = true.
  Proof.
    intros L H. destruct (leb_not_nan _ _ L) as [Nl Nx]. destruct (leb_not_nan _ _ H) as [_ Nh].
    unfold clip1, np_max_clip, np_min_clip. rewrite Nx.
    destruct (nltb lo x) eqn:E1.
    - rewrite Nx. destruct (nltb x hi) eqn:E2.
      + apply eqb_refl; assumption.
      + rewrite eqb_leb, H, (nltb_leb hi x) by assumption. reflexivity.
    - rewrite Nl. assert (A : nleb x lo = true) by (apply nltb_leb; assumption).
      destruct (nltb lo hi) eqn:E2.
      + rewrite eqb_leb, L, A. reflexivity.
      + assert (B : nleb hi lo = true) by (apply nltb_leb; assumption).
        assert (C : nleb hi x = true) by (eapply leb_trans; eassumption).
        rewrite eqb_leb, H, C. reflexivity.
  Qed.

  (** values outside go to the nearest limit *)
  Lemma clip1_low (x lo hi : T) :
    nleb lo hi = true -> nltb x lo = true -> neqb (clip1 x lo hi) lo = true.
  Proof.
    intros L H. destruct (leb_not_nan _ _ L) as [Nl Nh]. destruct (ltb_not_nan _ _ H) as [Nx _].
    unfold clip1, np_max_clip, np_min_clip. rewrite Nx, (ltb_asym _ _ H), Nl.
    destruct (nltb lo hi) eqn:E2.
    - apply eqb_refl; assumption.
    - rewrite eqb_leb, L, (nltb_leb hi lo) by assumption. reflexivity.
  Qed.

  Lemma clip1_high (x lo hi : T) :
    nleb lo hi = true -> nltb hi x = true -> clip1 x lo hi = hi.
  Proof.
    intros L H. destruct (leb_not_nan _ _ L) as [Nl Nh]. destruct (ltb_not_nan _ _ H) as [_ Nx].
    unfold clip1, np_max_clip, np_min_clip. rewrite Nx.
    destruct (nltb lo x) eqn:E1.
    - rewrite Nx, (ltb_asym _ _ H). reflexivity.
    - exfalso. assert (A : nleb x lo = true) by (apply nltb_leb; assumption).
      assert (B : nleb x hi = true) by (eapply leb_trans; eassumption).
      rewrite (leb_nltb _ _ B) in H. congruence.
  Qed.
End Clip.

Global Instance XR_neg (r32 : R -> xr) : @NumNeg xr (XR r32).
Proof.
  constructor; simpl.
  - intros [] []; simpl; try reflexivity. destruct (Rle_bool_spec r r0), (Rle_bool_spec (- r0) (- r)); try reflexivity; lra.
  - intros []; reflexivity.
  - apply Rle_bool_true. lra.
  - reflexivity.
  - reflexivity.
Qed.
Lemma f64_key_opp (x : f64) : f64_key (Bopp x) = xneg (f64_key x).
Proof.
  destruct x as [s|s| |s m e H]; try reflexivity.
  - simpl. f_equal. lra.
  - simpl. destruct s; reflexivity.
  - rewrite !f64_fin_key by reflexivity. rewrite B2R_Bopp. reflexivity.
Qed.
Global Instance F64_neg (lm : libm) : @NumNeg f64 (F64 lm).
Proof.
  constructor.
  - intros x y. cbn [nleb nneg F64]. rewrite !Bleb_key, !f64_key_opp. apply (@leb_neg xr (XR Fin) _).
  - intros []; reflexivity.
  - reflexivity.
  - reflexivity.
  - reflexivity.
Qed.
