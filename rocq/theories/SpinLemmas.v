(** Torque-free motion of the six-degrees-of-freedom spacecraft. *)
From Coq Require Import String List Bool Arith ZArith Lia Reals Lra.
From Flocq Require Import Core.Core.
From Coquelicot Require Import Coquelicot.
From Verif Require Import PyBase Num Arr BaseModel Spec SpecBase XReal NumOrdLemmas ArrLemmas BaseLemmas BaseLemmas2 Cwh Utils SixDof
  SpecRk SpecCwh SpecSixDof SpecFlow SpecSpin XTac RkLemmas CwhLemmas LimLemmas FlowLemmas SixDofLemmas SixDofProps.
Import List ListNotations.
Local Open Scope R_scope.

(** ** Quaternions *)
Lemma norm3_pos w : w <> zero3 -> 0 < norm3 w.
Proof.
  intros H. apply sqrt_lt_R0. destruct w as [[a b] c]. cbv [dot3].
  destruct (Req_dec a 0), (Req_dec b 0), (Req_dec c 0); subst; try (exfalso; apply H; reflexivity); nra.
Qed.
Lemma norm3_sq w : norm3 w * norm3 w = dot3 w w.
Proof. apply sqrt_sqrt. destruct w as [[a b] c]. cbv [dot3]. nra. Qed.

Lemma qturn_0 w : qturn w 0 = (zero3, 1).
Proof.
  unfold qturn. rewrite Rmult_0_r. unfold Rdiv at 2 3. rewrite Rmult_0_l, sin_0, cos_0.
  destruct w as [[a b] c]. unfold Rdiv. rewrite Rmult_0_l. cbv [scale3 zero3]. repeat apply (f_equal2 pair); ring.
Qed.
Lemma qturn_zero t : qturn zero3 t = (zero3, 1).
Proof.
  unfold qturn. replace (norm3 zero3) with 0 by (unfold norm3; cbv [dot3 zero3]; rewrite <- sqrt_0 at 1; f_equal; ring).
  replace (0 * t / 2) with 0 by (unfold Rdiv; ring). rewrite cos_0. cbv [scale3 zero3]. repeat apply (f_equal2 pair); ring.
Qed.
Lemma zero3_dec (w : vec) : {w = zero3} + {w <> zero3}.
Proof.
  destruct w as [[a b] c]. destruct (Req_EM_T a 0) as [->|]; [|right; intros E; injection E; auto].
  destruct (Req_EM_T b 0) as [->|]; [|right; intros E; injection E; auto].
  destruct (Req_EM_T c 0) as [->|]; [left; reflexivity|right; intros E; injection E; auto].
Qed.
Lemma qmul_1 q : qmul q (zero3, 1) = q.
Proof. destruct q as [[[a b] c] d]. unquat. cbv [zero3]. repeat apply (f_equal2 pair); ring. Qed.
Lemma qmul_assoc p q r : qmul (qmul p q) r = qmul p (qmul q r).
Proof.
  destruct p as [[[a b] c] d], q as [[[a' b'] c'] d'], r as [[[a'' b''] c''] d'']. unquat.
  repeat apply (f_equal2 pair); ring.
Qed.
Lemma qturn_add w a b : qmul (qturn w a) (qturn w b) = qturn w (a + b).
Proof.
  destruct (zero3_dec w) as [->|H]; [rewrite !qturn_zero; apply qmul_1|].
  pose proof (norm3_pos w H) as P. pose proof (norm3_sq w) as Q. unfold qturn.
  replace (norm3 w * (a + b) / 2) with (norm3 w * a / 2 + norm3 w * b / 2) by field.
  rewrite sin_plus, cos_plus. set (k := norm3 w) in *. clearbody k.
  set (sa := sin (k * a / 2)). set (ca := cos (k * a / 2)). set (sb := sin (k * b / 2)). set (cb := cos (k * b / 2)).
  destruct w as [[x y] z]. unquat. cbv [dot3] in Q.
  repeat apply (f_equal2 pair); try (field; lra).
  transitivity (ca * cb - sa * sb / (k * k) * (x * x + y * y + z * z)); [field; lra|]. rewrite <- Q. field. lra.
Qed.
Lemma qturn_norm w t : qnorm2 (qturn w t) = 1.
Proof.
  destruct (zero3_dec w) as [->|H]; [rewrite qturn_zero; unquat; cbv [zero3]; ring|].
  pose proof (norm3_pos w H) as P. pose proof (norm3_sq w) as Q. unfold qturn.
  pose proof (sin2_cos2 (norm3 w * t / 2)) as S. unfold Rsqr in S. set (k := norm3 w) in *. clearbody k.
  set (s := sin (k * t / 2)) in *. set (c := cos (k * t / 2)) in *.
  destruct w as [[x y] z]. unquat. cbv [dot3] in Q. rewrite <- S.
  transitivity (s * s / (k * k) * (x * x + y * y + z * z) + c * c); [field; lra|]. rewrite <- Q. field. lra.
Qed.
Lemma qturn_period w t : w <> zero3 -> qturn w (t + 2 * PI / norm3 w) = qscale (-1) (qturn w t).
Proof.
  intros H. pose proof (norm3_pos w H) as P. unfold qturn.
  replace (norm3 w * (t + 2 * PI / norm3 w) / 2) with (norm3 w * t / 2 + PI) by (field; lra).
  rewrite neg_sin, neg_cos. destruct w as [[x y] z]. unquat. repeat apply (f_equal2 pair); field; apply Rgt_not_eq, P.
Qed.
Lemma qmul_neg p q : qmul p (qscale (-1) q) = qscale (-1) (qmul p q).
Proof. destruct p as [[[a b] c] d], q as [[[a' b'] c'] d']. unquat. repeat apply (f_equal2 pair); ring. Qed.

Lemma stop3_0 lim w : stop3 lim w zero3 = zero3.
Proof.
  destruct lim as [[a b] c], w as [[x y] z]. cbv [stop3 zero3].
  assert (S : forall lo hi x, stopR lo hi x 0 = 0).
  { intros lo hi u. unfold stopR, Rmin, Rmax. destruct (Rle_dec hi u), (Rle_dec u lo), (Rle_dec 0 0); lra. }
  rewrite !S. reflexivity.
Qed.
Lemma spin_0 q : spin q zero3 = zero3.
Proof. destruct q as [[[a b] c] d]. unquat. cbv [zero3]. repeat apply (f_equal2 pair); ring. Qed.

Section I.
  Local Hint Extern 0 (Num xr) => exact (XR Fin) : typeclass_instances.

  Lemma coast_csd m I i0 i1 i2 lim n body samples method d : sd_ok m I i0 i1 i2 ->
    sixdof_dyn (Fin m) I (fin3 lim) (Fin n) body samples method = Ok d ->
    forall t p q v w, sd_gyro i0 i1 i2 w = zero3 ->
      compute_state_dot d t (A1 (map Fin (sd_state p q v w))) (A1 (map Fin (sd_ctrl zero3 zero3))) =
      Ok (A1 (map Fin (sd_state v (qscale (1/2) (qmul q (w, 0))) (sd_cw n p v) zero3))).
  Proof.
    intros K E t p q v w G. rewrite (sixdof_csd_exact _ _ _ _ _ _ _ _ _ _ _ K E). do 3 f_equal. rewrite G.
    replace (add3 zero3 (div3 zero3 i0 i1 i2)) with zero3 by (cbv [add3 div3 zero3]; unfold Rdiv; repeat apply (f_equal2 pair); ring).
    rewrite stop3_0. f_equal.
    replace (sd_thrust body q zero3) with zero3 by (destruct body; [symmetry; apply spin_0|reflexivity]).
    destruct (sd_cw n p v) as [[a b] c]. cbv [add3 scale3 zero3]. repeat apply (f_equal2 pair); ring.
  Qed.

  Lemma coast_0 n p q v w : n <> 0 -> sd_coast n p q v w 0 = sd_state p q v w.
  Proof.
    intros Hn. destruct p as [[x y] z], v as [[vx vy] vz]. unfold sd_coast. rewrite cw_flow_0 by auto.
    rewrite qturn_0, qmul_1. reflexivity.
  Qed.
  Lemma coast_len n p q v w t : length (sd_coast n p q v w t) = 13%nat.
  Proof.
    destruct p as [[x y] z], v as [[vx vy] vz]. unfold sd_coast, cw_flow. cbv zeta. apply sd_nth.
  Qed.

  Lemma coast_solves m I i0 i1 i2 lim n body samples method d p q v w : sd_ok m I i0 i1 i2 -> n <> 0 ->
    sixdof_dyn (Fin m) I (fin3 lim) (Fin n) body samples method = Ok d -> sd_gyro i0 i1 i2 w = zero3 ->
    solves d (A1 (map Fin (sd_ctrl zero3 zero3))) (sd_coast n p q v w).
  Proof.
    intros K Hn E G t. rewrite !coast_len. destruct p as [[x y] z], v as [[vx vy] vz].
    unfold sd_coast, cw_flow. cbv zeta.
    match goal with |- context [sd_state ?P ?qq ?V w] => pose proof (coast_csd _ _ _ _ _ _ _ _ _ _ _ K E (Fin t) P qq V w G) as C end.
    eexists. split; [reflexivity|]. split; [|split; [exact C|]]; [apply sd_nth|]. clear C.
    destruct (zero3_dec w) as [->|Hw].
    { intros i Hi. rewrite qturn_zero, qmul_1.
      eapply is_derive_ext; [intros u; rewrite qturn_zero, qmul_1; reflexivity|].
      destruct q as [[[q1 q2] q3] q4]. unquat. cbv [sd_state sd_cw zero3].
      do 13 try (destruct i as [|i]); cbn [nth]; try lia; (auto_derive; [repeat split; auto; lra|]); try (field; auto). }
    pose proof (norm3_pos w Hw) as P. pose proof (norm3_sq w) as Q.
    unfold qturn. set (k := norm3 w) in *. clearbody k.
    destruct w as [[wx wy] wz], q as [[[q1 q2] q3] q4]. unquat. cbv [dot3] in Q. cbv [sd_state sd_cw zero3].
    intros i Hi.
    assert (Hk : k <> 0) by lra.
    do 13 try (destruct i as [|i]); cbn [nth]; try lia; (auto_derive; [repeat split; auto; lra|]); try (field; auto).
    all: assert (Q' : k^2 = wx * wx + wy * wy + wz * wz) by (rewrite <- Q; ring).
    all: unfold Rdiv; field_simplify_eq; [|auto]; ring [Q'].
  Qed.

  Lemma equal_gyro i w : i <> 0 -> sd_gyro i i i w = zero3.
  Proof. intros H. destruct w as [[a b] c]. cbv [sd_gyro zero3]. repeat apply (f_equal2 pair); field; auto. Qed.

  Lemma coast_eqs m I i lim n body samples method d sol : sd_ok m I i i i ->
    sixdof_dyn (Fin m) I (fin3 lim) (Fin n) body samples method = Ok d -> length (sol 0) = 13%nat ->
    solves d (A1 (map Fin (sd_ctrl zero3 zero3))) sol ->
    let g := fun i t => nth i (sol t) 0 in
    (forall t, length (sol t) = 13%nat) /\
    forall t,
      is_derive (g 0%nat) t (g 7%nat t) /\ is_derive (g 1%nat) t (g 8%nat t) /\ is_derive (g 2%nat) t (g 9%nat t) /\
      is_derive (g 7%nat) t (3 * n^2 * g 0%nat t + 2 * n * g 8%nat t) /\ is_derive (g 8%nat) t (- 2 * n * g 7%nat t) /\
      is_derive (g 9%nat) t (- n^2 * g 2%nat t) /\
      is_derive (g 3%nat) t (1/2 * (g 6%nat t * g 10%nat t - g 5%nat t * g 11%nat t + g 4%nat t * g 12%nat t)) /\
      is_derive (g 4%nat) t (1/2 * (g 5%nat t * g 10%nat t + g 6%nat t * g 11%nat t - g 3%nat t * g 12%nat t)) /\
      is_derive (g 5%nat) t (1/2 * (- g 4%nat t * g 10%nat t + g 3%nat t * g 11%nat t + g 6%nat t * g 12%nat t)) /\
      is_derive (g 6%nat) t (1/2 * (- g 3%nat t * g 10%nat t - g 4%nat t * g 11%nat t - g 5%nat t * g 12%nat t)) /\
      is_derive (g 10%nat) t 0 /\ is_derive (g 11%nat) t 0 /\ is_derive (g 12%nat) t 0.
  Proof.
    intros K E L S g. assert (Hi : i <> 0) by apply K. split.
    { intros t. destruct (S t) as (ds & L1 & _). congruence. }
    intros t. destruct (S t) as (ds & L1 & L2 & C & D). rewrite L in *.
    destruct (sd_split (sol t) L1) as (p & q & v & w & Eq). rewrite Eq in C.
    rewrite (coast_csd _ _ _ _ _ _ _ _ _ _ _ K E) in C by (apply equal_gyro; auto).
    apply Ok_Fin_inj in C. subst ds. unfold g. clear g.
    pose proof (D 0%nat ltac:(lia)) as D0. pose proof (D 1%nat ltac:(lia)) as D1. pose proof (D 2%nat ltac:(lia)) as D2.
    pose proof (D 3%nat ltac:(lia)) as D3. pose proof (D 4%nat ltac:(lia)) as D4. pose proof (D 5%nat ltac:(lia)) as D5.
    pose proof (D 6%nat ltac:(lia)) as D6. pose proof (D 7%nat ltac:(lia)) as D7. pose proof (D 8%nat ltac:(lia)) as D8.
    pose proof (D 9%nat ltac:(lia)) as D9. pose proof (D 10%nat ltac:(lia)) as D10. pose proof (D 11%nat ltac:(lia)) as D11.
    pose proof (D 12%nat ltac:(lia)) as D12. clear D. rewrite Eq. 
    destruct p as [[x y] z], q as [[[q1 q2] q3] q4], v as [[vx vy] vz], w as [[wx wy] wz].
    cbv [sd_cw zero3 qscale qmul add3 scale3 cross dot3 fst snd sd_state nth] in D0, D1, D2, D3, D4, D5, D6, D7, D8, D9, D10, D11, D12.
    cbn [sd_state nth] in *.
    do 12 (refine (conj _ _); [evar_last; [eassumption|unquat; ring]|]). evar_last; [eassumption|unquat; ring].
  Qed.

  Lemma squares4 a b c d : a^2 + b^2 + c^2 + d^2 = 0 -> a = 0 /\ b = 0 /\ c = 0 /\ d = 0.
  Proof.
    intros H. pose proof (pow2_ge_0 a). pose proof (pow2_ge_0 b). pose proof (pow2_ge_0 c). pose proof (pow2_ge_0 d).
    repeat split; apply (Rsqr_0_uniq); unfold Rsqr; lra.
  Qed.

  Lemma coast_same m I i lim n body samples method d sol sol' : sd_ok m I i i i -> n <> 0 ->
    sixdof_dyn (Fin m) I (fin3 lim) (Fin n) body samples method = Ok d -> length (sol 0) = 13%nat -> sol' 0 = sol 0 ->
    solves d (A1 (map Fin (sd_ctrl zero3 zero3))) sol -> solves d (A1 (map Fin (sd_ctrl zero3 zero3))) sol' ->
    forall t, sol t = sol' t.
  Proof.
    intros K Hn E L I0 S S'. assert (L' : length (sol' 0) = 13%nat) by congruence.
    destruct (coast_eqs _ _ _ _ _ _ _ _ _ _ K E L S) as (Ln & D).
    destruct (coast_eqs _ _ _ _ _ _ _ _ _ _ K E L' S') as (Ln' & D'). cbv zeta in *.
    set (g := fun i t => nth i (sol t) 0) in *. set (g' := fun i t => nth i (sol' t) 0) in *.
    assert (W : forall j t, (j = 10 \/ j = 11 \/ j = 12)%nat -> g j t = g j 0 /\ g' j t = g j 0).
    { intros j t Hj. assert (G0 : g' j 0 = g j 0) by (unfold g, g'; rewrite I0; reflexivity). rewrite <- G0 at 2.
      split; apply const_of_derive; intros u; specialize (D u); specialize (D' u); destruct Hj as [->|[->| ->]]; tauto. }
    assert (Z : forall t j, (j < 6)%nat -> g (nth j [0; 1; 2; 7; 8; 9] 0)%nat t - g' (nth j [0; 1; 2; 7; 8; 9] 0)%nat t = 0).
    { apply (cw_zero n (fun j t => g (nth j [0; 1; 2; 7; 8; 9] 0)%nat t - g' (nth j [0; 1; 2; 7; 8; 9] 0)%nat t) Hn); cbn [nth].
      1-6: intros t; destruct (D t) as (A0 & A1' & A2 & A7 & A8 & A9 & _); destruct (D' t) as (B0 & B1 & B2 & B7 & B8 & B9 & _).
      - apply (is_derive_minus (g 0%nat) (g' 0%nat)); assumption.
      - apply (is_derive_minus (g 1%nat) (g' 1%nat)); assumption.
      - apply (is_derive_minus (g 2%nat) (g' 2%nat)); assumption.
      - evar_last. apply (is_derive_minus (g 7%nat) (g' 7%nat)); eassumption. unfold minus, plus, opp; simpl. unfold g, g'. ring.
      - evar_last. apply (is_derive_minus (g 8%nat) (g' 8%nat)); eassumption. unfold minus, plus, opp; simpl. unfold g, g'. ring.
      - evar_last. apply (is_derive_minus (g 9%nat) (g' 9%nat)); eassumption. unfold minus, plus, opp; simpl. unfold g, g'. ring.
      - intros j _. unfold g, g'. rewrite I0. ring. }
    set (dl := fun j t => g j t - g' j t).
    assert (QZ : forall t, dl 3%nat t ^ 2 + dl 4%nat t ^ 2 + dl 5%nat t ^ 2 + dl 6%nat t ^ 2 = 0).
    { intros t. transitivity (dl 3%nat 0 ^ 2 + dl 4%nat 0 ^ 2 + dl 5%nat 0 ^ 2 + dl 6%nat 0 ^ 2).
      - apply (const_of_derive (fun t => dl 3%nat t ^ 2 + dl 4%nat t ^ 2 + dl 5%nat t ^ 2 + dl 6%nat t ^ 2)).
        clear t. intros t. destruct (D t) as (_ & _ & _ & _ & _ & _ & A3 & A4 & A5 & A6 & _).
        destruct (D' t) as (_ & _ & _ & _ & _ & _ & B3 & B4 & B5 & B6 & _).
        destruct (W 10%nat t ltac:(auto)) as (Wa & Wa'). destruct (W 11%nat t ltac:(auto)) as (Wb & Wb').
        destruct (W 12%nat t ltac:(auto)) as (Wc & Wc').
        unfold g, g' in Wa, Wb, Wc, Wa', Wb', Wc'.
        rewrite Wa, Wb, Wc in A3, A4, A5, A6. rewrite Wa', Wb', Wc' in B3, B4, B5, B6.
        pose proof (is_derive_minus (g 3%nat) (g' 3%nat) t _ _ A3 B3) as C3.
        pose proof (is_derive_minus (g 4%nat) (g' 4%nat) t _ _ A4 B4) as C4.
        pose proof (is_derive_minus (g 5%nat) (g' 5%nat) t _ _ A5 B5) as C5.
        pose proof (is_derive_minus (g 6%nat) (g' 6%nat) t _ _ A6 B6) as C6.
        unfold minus, plus, opp in C3, C4, C5, C6; simpl in C3, C4, C5, C6.
        change (fun x => g 3%nat x + - g' 3%nat x) with (dl 3%nat) in C3.
        change (fun x => g 4%nat x + - g' 4%nat x) with (dl 4%nat) in C4.
        change (fun x => g 5%nat x + - g' 5%nat x) with (dl 5%nat) in C5.
        change (fun x => g 6%nat x + - g' 6%nat x) with (dl 6%nat) in C6.
        auto_derive.
        + refine (conj _ (conj _ (conj _ (conj _ Logic.I)))); eexists; eassumption.
        + rwD C3. rwD C4. rwD C5. rwD C6. unfold dl, g, g'. ring.
      - unfold dl, g, g'. rewrite I0. ring. }
    intros t.
    assert (A : forall j, (j < 13)%nat -> nth j (sol t) 0 = nth j (sol' t) 0).
    { intros j Hj. change (g j t = g' j t).
      specialize (QZ t). unfold dl in QZ. apply squares4 in QZ. destruct QZ as (Q3 & Q4 & Q5 & Q6).
      do 13 (destruct j as [|j]; [first [lra|pose proof (Z t 0%nat ltac:(lia)) as X; cbn [nth] in X; lra
        |pose proof (Z t 1%nat ltac:(lia)) as X; cbn [nth] in X; lra|pose proof (Z t 2%nat ltac:(lia)) as X; cbn [nth] in X; lra
        |pose proof (Z t 3%nat ltac:(lia)) as X; cbn [nth] in X; lra|pose proof (Z t 4%nat ltac:(lia)) as X; cbn [nth] in X; lra
        |pose proof (Z t 5%nat ltac:(lia)) as X; cbn [nth] in X; lra
        |destruct (W 10%nat t ltac:(auto)); lra|destruct (W 11%nat t ltac:(auto)); lra|destruct (W 12%nat t ltac:(auto)); lra]|]). lia. }
    apply (nth_ext _ _ 0 0); [rewrite Ln, Ln'; reflexivity|]. intros j Hj. apply A. rewrite Ln in Hj. exact Hj.
  Qed.

  Lemma coast_unique m I i lim n body samples method d sol p q v w : sd_ok m I i i i -> n <> 0 ->
    sixdof_dyn (Fin m) I (fin3 lim) (Fin n) body samples method = Ok d -> sol 0 = sd_state p q v w ->
    solves d (A1 (map Fin (sd_ctrl zero3 zero3))) sol -> forall t, sol t = sd_coast n p q v w t.
  Proof.
    intros K Hn E S0 S. apply (coast_same m I i lim n body samples method d); auto.
    - rewrite S0. apply sd_nth.
    - rewrite S0. apply coast_0; auto.
    - eapply coast_solves; eauto. apply equal_gyro. apply K.
  Qed.

  (** Coasting for a time a and then for a time b is coasting for a + b. *)
  Lemma coast_state n p q v w t : exists p' v', sd_coast n p q v w t = sd_state p' (qmul q (qturn w t)) v' w.
  Proof. destruct p as [[x y] z], v as [[vx vy] vz]. unfold sd_coast, cw_flow. cbv zeta. eauto. Qed.
  Lemma coast_add n p q v w a b p' q' v' w' : n <> 0 -> sd_coast n p q v w a = sd_state p' q' v' w' ->
    sd_coast n p q v w (a + b) = sd_coast n p' q' v' w' b.
  Proof.
    intros Hn E. destruct p as [[x y] z], v as [[vx vy] vz].
    assert (F : forall x y z vx vy vz t, cw_flow n [x; y; z; vx; vy; vz] t = cw_forced n 0 0 0 [x; y; z; vx; vy; vz] t).
    { clear - Hn. intros. rewrite forced_eq. unfold cw_flow. cbv zeta. fin_list; field; auto. }
    unfold sd_coast in *. rewrite F in *. rewrite (forced_semigroup Fin) by auto.
    pose proof (forced_len n 0 0 0 [x; y; z; vx; vy; vz] a eq_refl) as L.
    destruct (cw_forced n 0 0 0 [x; y; z; vx; vy; vz] a) as [|x1 [|y1 [|z1 [|vx1 [|vy1 [|vz1 [|? ?]]]]]]]; try discriminate L.
    assert (Q : forall p q v w p' q' v' w', sd_state p q v w = sd_state p' q' v' w' -> p' = p /\ q' = q /\ v' = v /\ w' = w).
    { clear. intros [[? ?] ?] [[[? ?] ?] ?] [[? ?] ?] [[? ?] ?] [[? ?] ?] [[[? ?] ?] ?] [[? ?] ?] [[? ?] ?] E. injection E. intros. subst. auto. }
    apply Q in E. destruct E as (-> & -> & -> & ->).
    rewrite <- F, qmul_assoc, qturn_add. reflexivity.
  Qed.

  (** ** Steps with an exact solver *)
  Lemma coast_step (w0 : world xr) m I i0 i1 i2 lim n body samples e flo fhi mlo mhi p q v w h : sd_ok m I i0 i1 i2 -> n <> 0 ->
    sixdof_dyn (Fin m) I (fin3 lim) (Fin n) body samples "RK45" = Ok (e_dyn e) ->
    e_cmin e = A1 (map Fin (sd_ctrl flo mlo)) -> e_cmax e = A1 (map Fin (sd_ctrl fhi mhi)) ->
    clipc flo fhi zero3 = zero3 -> clipc mlo mhi zero3 = zero3 ->
    exact_on w0 (fun t x => compute_state_dot (e_dyn e) t x (A1 (map Fin (sd_ctrl zero3 zero3)))) ->
    SpecSixDof.within lim w -> sd_gyro i0 i1 i2 w = zero3 -> e_state e = A1 (map Fin (sd_state p q v w)) ->
    let o := entity_step w0 e (Fin h) (AArr (A1 (map Fin (sd_ctrl zero3 zero3)))) in
    o_res o = Ok tt /\ e_state (o_entity o) = A1 (map Fin (sd_coast n p q v w h)).
  Proof.
    intros K Hn E C1 C2 Z1 Z2 X Hw G Es o. subst o.
    unfold entity_step. cbn [decode_action]. rewrite C1, C2.
    assert (Cl : np_clip (A1 (map Fin (sd_ctrl zero3 zero3))) (A1 (map Fin (sd_ctrl flo mlo))) (A1 (map Fin (sd_ctrl fhi mhi)))
      = Ok (A1 (map Fin (sd_ctrl zero3 zero3)))).
    { destruct flo as [[a0 a1] a2], fhi as [[b0 b1] b2], mlo as [[c0 c1] c2], mhi as [[d0 d1] d2].
      rewrite np_clip_list by reflexivity. cbv [zero3]. cbn [sd_ctrl map expand clip_list length]. rewrite !clip1_Fin.
      cbv [clipc zero3] in Z1, Z2. injection Z1 as -> -> ->. injection Z2 as -> -> ->. reflexivity. }
    edestruct (out_of_bounds_spec (A1 (map Fin (sd_ctrl zero3 zero3))) (A1 (map Fin (sd_ctrl flo mlo))) (A1 (map Fin (sd_ctrl fhi mhi)))) as (b & Eb & _).
    1: destruct flo as [[? ?] ?], mlo as [[? ?] ?]; reflexivity. 1: destruct fhi as [[? ?] ?], mhi as [[? ?] ?]; reflexivity.
    rewrite Eb, Cl. unfold dyn_step, dyn__step.
    destruct lim as [[l0 l1] l2]. pose proof E as E'. cbn [fin3] in E'.
    destruct (sixdof_dyn_inv _ _ _ _ _ _ _ _ _ _ E') as (D1 & D2 & D3 & D4 & D5 & D6 & D7 & _).
    rewrite D7. cbn [String.eqb Ascii.eqb Bool.eqb]. rewrite Es. set (te := if (0 <? _)%Z then _ else _).
    destruct (X h te (sd_coast n p q v w)) as (sol & rows & Q1 & Q2).
    - intros t. destruct (coast_solves m I i0 i1 i2 (l0, l1, l2) n body _ _ _ p q v w K Hn E G t) as (ds & ?). exists ds. assumption.
    - intros ts Ets. unfold te in Ets. rewrite D6 in Ets. destruct (0 <? samples)%Z eqn:Sa; [|discriminate].
      injection Ets as <-. apply Z.ltb_lt in Sa. apply (t_eval_last Fin). lia.
    - rewrite coast_0 in Q1 by auto. rewrite Q1, Q2.
      set (s' := sd_coast n p q v w h) in *.
      destruct (rows ++ [map Fin s'])%list as [|r0 rs] eqn:Er; [destruct rows; discriminate|].
      rewrite <- Er. unfold last_row. rewrite rev_app_distr. cbn [rev app bind].
      destruct (coast_state n p q v w h) as (p' & v' & Et). fold s' in Et. rewrite Et.
      rewrite (coast_csd _ _ _ _ _ _ _ _ _ _ _ K E) by exact G. cbn [bind].
      rewrite D1, D2. set (q' := qmul q (qturn w h)). clearbody q'.
      destruct p' as [[x1 x2] x3], q' as [[[q1 q2] q3] q4], v' as [[v1 v2] v3], w as [[w1 w2] w3].
      rewrite np_clip_list by reflexivity. cbn [sd_state map expand clip_list length].
      change (@nninf xr _) with NInf. change (@npinf xr _) with PInf. cbn [nneg XR xneg]. rewrite !clip1_none, !clip1_Fin.
      cbv [SpecSixDof.within] in Hw. rewrite !clipR_id by apply Hw. cbn [bind]. unfold wrap_angles. rewrite D5. cbn [bind].
      split; reflexivity.
  Qed.

  Lemma coast_run (w0 : world xr) m I i0 i1 i2 lim n body samples flo fhi mlo mhi w : sd_ok m I i0 i1 i2 -> n <> 0 ->
    clipc flo fhi zero3 = zero3 -> clipc mlo mhi zero3 = zero3 ->
    SpecSixDof.within lim w -> sd_gyro i0 i1 i2 w = zero3 ->
    forall hs e p q v,
    sixdof_dyn (Fin m) I (fin3 lim) (Fin n) body samples "RK45" = Ok (e_dyn e) ->
    e_cmin e = A1 (map Fin (sd_ctrl flo mlo)) -> e_cmax e = A1 (map Fin (sd_ctrl fhi mhi)) ->
    exact_on w0 (fun t x => compute_state_dot (e_dyn e) t x (A1 (map Fin (sd_ctrl zero3 zero3)))) ->
    e_state e = A1 (map Fin (sd_state p q v w)) ->
    exists e', run w0 e (sd_acts (map (fun h => (h, zero3, zero3)) hs)) = Ok e' /\
      e_state e' = A1 (map Fin (sd_coast n p q v w (fold_right Rplus 0 hs))).
  Proof.
    intros K Hn Z1 Z2 Hw G. induction hs as [|h hs IH]; intros e p q v E C1 C2 X Es.
    - exists e. split; [reflexivity|]. cbn [fold_right]. rewrite coast_0 by auto. exact Es.
    - destruct (coast_step w0 m I i0 i1 i2 lim n body samples e flo fhi mlo mhi p q v w h K Hn E C1 C2 Z1 Z2 X Hw G Es) as (O & Q).
      pose proof (entity_step_config w0 e (Fin h) (AArr (A1 (map Fin (sd_ctrl zero3 zero3))))) as (K1 & _ & K3 & K4 & _).
      unfold sd_acts. set (o := entity_step w0 e (Fin h) (AArr (A1 (map Fin (sd_ctrl zero3 zero3))))) in *.
      rewrite !map_cons. cbn [run]. fold o. rewrite O. cbn [bind fold_right].
      destruct (coast_state n p q v w h) as (p' & v' & Et).
      rewrite (coast_add n p q v w h _ _ _ _ _ Hn Et). rewrite Et in Q.
      apply IH; try congruence. rewrite K1. exact X.
  Qed.

  Lemma coast_craft (w0 : world xr) m I i0 i1 i2 A V al vl iw aw vw thr body n samples p q v w e hs :
    sd_ok m I i0 i1 i2 -> n <> 0 -> limit_arg A al -> limit_arg V vl ->
    sixdof_build m I A V iw aw vw thr body n samples "RK45" p q v w = Ok e ->
    SpecSixDof.within al zero3 -> 0 < i0 -> 0 < i1 -> 0 < i2 -> 0 <= iw * aw -> 0 <= thr ->
    SpecSixDof.within (wheel_limit vl iw vw i0 i1 i2) w -> sd_gyro i0 i1 i2 w = zero3 ->
    exact_on w0 (fun t x => compute_state_dot (e_dyn e) t x (A1 (map Fin (sd_ctrl zero3 zero3)))) ->
    exists e', run w0 e (sd_acts (map (fun h => (h, zero3, zero3)) hs)) = Ok e' /\
      e_state e' = A1 (map Fin (sd_coast n p q v w (fold_right Rplus 0 hs))).
  Proof.
    intros K Hn La Lv E Al P0 P1 P2 Hw Ht W G X.
    destruct (sixdof_limits _ _ _ _ _ _ _ _ _ _ _ _ _ _ _ _ _ _ _ _ _ _ K La Lv E) as (D & Cx & Cm & Es).
    eapply coast_run; eauto.
    - cbv [clipc neg3 scale3 zero3]. rewrite !clipR_id by lra. reflexivity.
    - destruct al as [[a0 a1] a2]. cbv [SpecSixDof.within zero3] in Al.
      assert (Q : forall i, 0 < i -> 0 <= iw * aw / i). { intros i Hi. apply Rmult_le_pos; [auto|]. left. apply Rinv_0_lt_compat, Hi. }
      cbv [clipc neg3 scale3 inertia_mul wheel_limit zero3].
      assert (C : forall i a, 0 < i -> 0 <= a -> clipR (-1 * (i * Rmin a (iw * aw / i))) (i * Rmin a (iw * aw / i)) 0 = 0).
      { intros i a Hi Ha. assert (0 <= Rmin a (iw * aw / i)) by (apply Rmin_glb; auto). rewrite clipR_id; [reflexivity|nra]. }
      rewrite !C by (auto; lra). reflexivity.
  Qed.

  (** ** One turn *)
  Lemma coast_turn n p q v w t : w <> zero3 ->
    sd_quat (sd_coast n p q v w (t + 2 * PI / norm3 w)) = qscale (-1) (sd_quat (sd_coast n p q v w t)).
  Proof.
    intros Hw. destruct (coast_state n p q v w t) as (p1 & v1 & ->).
    destruct (coast_state n p q v w (t + 2 * PI / norm3 w)) as (p2 & v2 & ->).
    destruct (sd_nth p1 (qmul q (qturn w t)) v1 w) as (-> & _).
    destruct (sd_nth p2 (qmul q (qturn w (t + 2 * PI / norm3 w))) v2 w) as (-> & _).
    rewrite qturn_period by auto. apply qmul_neg.
  Qed.
  Lemma coast_norm n p q v w t : qnorm2 (sd_quat (sd_coast n p q v w t)) = qnorm2 q.
  Proof.
    destruct (coast_state n p q v w t) as (p1 & v1 & ->). destruct (sd_nth p1 (qmul q (qturn w t)) v1 w) as (-> & _).
    assert (M : forall a b, qnorm2 (qmul a b) = qnorm2 a * qnorm2 b).
    { intros [[[? ?] ?] ?] [[[? ?] ?] ?]. unquat. ring. }
    rewrite M, qturn_norm. ring.
  Qed.

  (** The axis of rotation stays fixed in space. *)
  Lemma qturn_axis w t : spin (qturn w t) w = w.
  Proof.
    destruct (zero3_dec w) as [->|H]; [apply spin_0|].
    pose proof (norm3_pos w H) as P. pose proof (norm3_sq w) as Q. unfold qturn.
    pose proof (sin2_cos2 (norm3 w * t / 2)) as S. unfold Rsqr in S. set (k := norm3 w) in *. clearbody k.
    set (s := sin (k * t / 2)) in *. set (c := cos (k * t / 2)) in *.
    destruct w as [[x y] z]. unquat. cbv [dot3] in Q.
    assert (U : (s / k) * (s / k) * (x * x + y * y + z * z) + c * c = 1).
    { rewrite <- Q, <- S. field. lra. }
    set (u := s / k) in *. clearbody u. clear Q S. clearbody c.
    repeat apply (f_equal2 pair).
    - transitivity (x * (u * u * (x * x + y * y + z * z) + c * c)); [ring|rewrite U; ring].
    - transitivity (y * (u * u * (x * x + y * y + z * z) + c * c)); [ring|rewrite U; ring].
    - transitivity (z * (u * u * (x * x + y * y + z * z) + c * c)); [ring|rewrite U; ring].
  Qed.
  Lemma coast_axis n p q v w t : spin (sd_quat (sd_coast n p q v w t)) w = spin q w.
  Proof.
    destruct (coast_state n p q v w t) as (p1 & v1 & ->). destruct (sd_nth p1 (qmul q (qturn w t)) v1 w) as (-> & _).
    rewrite <- spin_comp, qturn_axis. reflexivity.
  Qed.

  (** ** A solver without error *)
  Definition coast_world (n : R) : world xr :=
    {| w_solve_ivp := fun f h s te =>
         match s with
         | A1 l => match map real_of l with
                   | [x; y; z; q1; q2; q3; q4; vx; vy; vz; wx; wy; wz] =>
                       Ok {| sol_t := [h];
                             sol_y := [map Fin (sd_coast n (x, y, z) ((q1, q2, q3), q4) (vx, vy, vz) (wx, wy, wz) (real_of h))];
                             sol_success := true |}
                   | _ => Err ValueError
                   end
         | _ => Err ValueError
         end;
       w_odeint := fun _ _ _ => Err ValueError;
       w_jax := false |}.

  Lemma coast_world_exact m I i lim n body samples method d : sd_ok m I i i i -> n <> 0 ->
    sixdof_dyn (Fin m) I (fin3 lim) (Fin n) body samples method = Ok d ->
    exact_on (coast_world n) (fun t x => compute_state_dot d t x (A1 (map Fin (sd_ctrl zero3 zero3)))).
  Proof.
    intros K Hn E h te phi Ic _.
    assert (S : solves d (A1 (map Fin (sd_ctrl zero3 zero3))) phi).
    { intros t. destruct (Ic t) as (ds & Q). exists ds. exact Q. }
    assert (L0 : length (phi 0) = 13%nat).
    { destruct (Ic 0) as (ds & _ & _ & C & _). revert C. generalize (phi 0) as l. intros l C.
      destruct lim as [[l0 l1] l2]. unfold sixdof_dyn in E. cbn [fin3] in E. revert E.
      destruct (generate_cwh_matrices _ _ _) as [[A B]|]; [|discriminate]. cbn [bind].
      destruct (py_assert _) as [[]|]; [|discriminate]. cbn [bind]. destruct (py_assert _) as [[]|]; [|discriminate]. cbn [bind].
      intros E; injection E as <-. revert C. unfold compute_state_dot, affine_raw. cbn [d_raw].
      do 14 (destruct l as [|? l]; [try (cbn; intros C; discriminate C); try reflexivity|]). cbn. discriminate. }
    destruct (sd_split _ L0) as (p & q & v & w & Ep).
    cbn [w_solve_ivp coast_world]. rewrite real_of_Fin, Ep.
    destruct p as [[x y] z], q as [[[q1 q2] q3] q4], v as [[vx vy] vz], w as [[wx wy] wz]. cbn [sd_state].
    eexists _, []. split; [reflexivity|]. cbn [sol_y app real_of]. do 2 f_equal.
    symmetry. apply (coast_unique m I i lim n body samples method d phi _ _ _ _ K Hn E Ep S).
  Qed.

  (** ** Effect of the thrusters *)
  Lemma thrust_step (w0 : world xr) m I i0 i1 i2 lim n body samples e : sd_ok m I i0 i1 i2 -> (samples <= 0)%Z ->
    sixdof_dyn (Fin m) I (fin3 lim) (Fin n) body samples "Euler" = Ok (e_dyn e) ->
    forall flo fhi mlo mhi, e_cmin e = A1 (map Fin (sd_ctrl flo mlo)) -> e_cmax e = A1 (map Fin (sd_ctrl fhi mhi)) ->
    forall p q v w f M h, e_state e = A1 (map Fin (sd_state p q v w)) ->
    let o := entity_step w0 e (Fin h) (AArr (A1 (map Fin (sd_ctrl f M)))) in
    exists p' q' w' a, o_res o = Ok tt /\
      e_state (o_entity o) = A1 (map Fin (sd_state p' q' (add3 v (scale3 h (add3 (sd_cw n p v) a))) w')) /\
      dot3 a a = (if body then qnorm2 q * qnorm2 q else 1) * dot3 (clipc flo fhi f) (clipc flo fhi f) / (m * m).
  Proof.
    intros K Sa D flo fhi mlo mhi Cm Cx p q v w f M h Es o.
    destruct (sixdof_step w0 _ _ _ _ _ _ _ _ _ e K Sa D _ _ _ _ Cm Cx p q v w f M h Es) as (S1 & _ & S2).
    do 4 eexists. split; [exact S1|]. split; [exact S2|].
    set (g := clipc _ _ _).
    assert (Q : forall u, dot3 (scale3 (/ m) u) (scale3 (/ m) u) = dot3 u u / (m * m)).
    { intros [[? ?] ?]. cbv [dot3 scale3]. field. apply K. }
    rewrite Q. unfold sd_thrust. destruct body; [rewrite spin_dot|rewrite Rmult_1_l]; reflexivity.
  Qed.
  Lemma thrust_law (w0 : world xr) m I i0 i1 i2 A V al vl iw aw vw thr body n samples p0 q0 v0 w0' e :
    sd_ok m I i0 i1 i2 -> (samples <= 0)%Z -> limit_arg A al -> limit_arg V vl ->
    sixdof_build m I A V iw aw vw thr body n samples "Euler" p0 q0 v0 w0' = Ok e ->
    forall acts e' p q v w h f M, run w0 e acts = Ok e' -> e_state e' = A1 (map Fin (sd_state p q v w)) ->
    let o := entity_step w0 e' (Fin h) (AArr (A1 (map Fin (sd_ctrl f M)))) in
    let g := clipc (- thr, - thr, - thr) (thr, thr, thr) f in
    exists p' q' w' a, o_res o = Ok tt /\
      e_state (o_entity o) = A1 (map Fin (sd_state p' q' (add3 v (scale3 h (add3 (sd_cw n p v) a))) w')) /\
      dot3 a a = (if body then qnorm2 q * qnorm2 q else 1) * dot3 g g / (m * m).
  Proof.
    intros K Sa La Lv E acts e' p q v w h f M R1 Es o g.
    destruct (sixdof_limits _ _ _ _ _ _ _ _ _ _ _ _ _ _ _ _ _ _ _ _ _ _ K La Lv E) as (D & Cx & Cm & _).
    destruct (run_config w0 _ _ _ R1) as (D1 & _ & D2 & D3 & _).
    rewrite <- D1 in D. rewrite <- D2 in Cm. rewrite <- D3 in Cx.
    destruct (thrust_step w0 m I i0 i1 i2 _ n body samples e' K Sa D _ _ _ _ Cm Cx p q v w f M h Es) as (p2 & q2 & w2 & a & S1 & S2 & S3).
    exists p2, q2, w2, a. split; [exact S1|]. split; [exact S2|]. rewrite S3.
    replace (clipc (neg3 (thr, thr, thr)) (thr, thr, thr) f) with g; [reflexivity|].
    unfold g, neg3, scale3. replace (-1 * thr) with (- thr) by ring. reflexivity.
  Qed.

  Lemma thrust_unbounded (w0 : world xr) (B : R) :
    exists e e' l p q v w h f p' q' w' a,
      sixdof_build 2 (diag 1 1 1) (NAnum (PyInt 1)) (NAnum (PyInt 1)) 10 10 10 1 true 1 0 "Euler"
        (0, 0, 0) ((0, 0, 0), 1) (0, 0, 0) (0, 0, 1) = Ok e /\
      run w0 e (sd_acts l) = Ok e' /\ e_state e' = A1 (map Fin (sd_state p q v w)) /\
      f = (1, 0, 0) /\
      let o := entity_step w0 e' (Fin h) (AArr (A1 (map Fin (sd_ctrl f zero3)))) in
      o_res o = Ok tt /\
      e_state (o_entity o) = A1 (map Fin (sd_state p' q' (add3 v (scale3 h (add3 (sd_cw 1 p v) a))) w')) /\
      h = 1 /\ B < dot3 a a.
  Proof.
    assert (La : limit_arg (NAnum (PyInt 1)) (1, 1, 1)).
    { right. eexists. split; [reflexivity|]. cbn. repeat split; apply (f_equal Fin); field. }
    destruct (sixdof_craft_ok 2 (diag 1 1 1) _ _ _ _ 10 10 10 1 true 1 0%Z "Euler" (0, 0, 0) ((0, 0, 0), 1) (0, 0, 0) (0, 0, 1) ltac:(lra) La La) as [e E].
    assert (Hok : sd_ok 2 (diag 1 1 1) 1 1 1) by (repeat split; lra).
    destruct (Pow_x_infinity (5/4) ltac:(rewrite Rabs_right; lra) (4 * Rabs B + 4)) as (k & Hk).
    specialize (Hk k (le_n k)). rewrite Rabs_right in Hk by (apply Rle_ge, pow_le; lra).
    destruct (sixdof_craft_run w0 _ _ _ _ _ _ _ _ _ _ _ _ _ _ _ _ _ _ _ _ _ (repeat (1, (0, 0, 0), (0, 0, 0)) k) Hok (Z.le_refl 0) La La E)
      as (e' & p' & q' & v' & w' & R1 & R2 & _ & _ & R5).
    destruct R5 as [_ R5]; auto; try lra.
    { cbv [wheel_limit SpecSixDof.within]. rewrite !Rmin_left by lra. lra. }
    { cbv [SpecSixDof.within]. lra. }
    { intros h f M K. apply repeat_spec in K. injection K as -> -> ->. reflexivity. }
    assert (G : qnorm2 q' = (5/4)^k).
    { rewrite R5. clear. replace (qnorm2 (0, 0, 0, 1)) with 1 by (unquat; ring). rewrite Rmult_1_l. unfold growth, steps_of.
      induction k as [|k IH]; [reflexivity|]. rewrite <- tech_pow_Rmult, <- IH. cbv [dot3]. simpl. field. }
    destruct (thrust_law w0 _ _ _ _ _ _ _ _ _ _ _ _ _ _ _ _ _ _ _ _ _ Hok (Z.le_refl 0) La La E _ e' p' q' v' w' 1 (1, 0, 0) zero3 R1 R2)
      as (p2 & q2 & w2 & a & S1 & S2 & S3).
    exists e, e', (repeat (1, (0, 0, 0), (0, 0, 0)) k), p', q', v', w', 1, (1, 0, 0), p2, q2, w2, a.
    split; [exact E|]. split; [exact R1|]. split; [exact R2|]. split; [reflexivity|].
    cbv zeta. split; [exact S1|]. split; [exact S2|]. split; [reflexivity|].
    rewrite S3, G. cbv [clipc]. rewrite !clipR_id by lra. cbv [dot3].
    pose proof (Rle_abs B). pose proof (Rabs_pos B). set (u := (5/4)^k) in *. clearbody u. nra.
  Qed.
End I.
