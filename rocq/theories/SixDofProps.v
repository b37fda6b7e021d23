(** Consequences for the six-degrees-of-freedom spacecraft in the form of the properties. *)
From Coq Require Import String List Bool Arith ZArith Lia Reals Lra.
From Coquelicot Require Import Coquelicot.
From Flocq Require Import Core.Core.
From Verif Require Import PyBase Num Arr BaseModel Cwh Utils Rot2d SixDof Spec SpecBase SpecWrap XReal NumOrdLemmas ArrLemmas
  BaseLemmas BaseLemmas2 BaseLemmas3 BaseLemmas4 WrapLemmas XTac SpecRk SpecCwh SpecSixDof RkLemmas CwhLemmas LimLemmas
  Rot2dLemmas SixDofLemmas.
Import List ListNotations.
Local Open Scope R_scope.

(** ** Quaternion algebra *)
Ltac unquat := cbv [spin qmul qconj qscale qnorm2 rotate add3 scale3 cross dot3 fst snd sd_quat sd_rate qz].
Ltac dvec v := destruct v as [[? ?] ?].

Lemma spin_rotate q v : qnorm2 q = 1 -> spin q v = rotate q v.
Proof.
  destruct q as [[[a b] c] d], v as [[x y] z]. unquat. intros H.
  assert (E : d * d = 1 - (a * a + b * b + c * c)) by lra.
  repeat apply (f_equal2 pair).
  - transitivity ((d * d + a * a - b * b - c * c) * x + 2 * (a * b - c * d) * y + 2 * (a * c + b * d) * z); [ring|rewrite E; ring].
  - transitivity (2 * (a * b + c * d) * x + (d * d - a * a + b * b - c * c) * y + 2 * (b * c - a * d) * z); [ring|rewrite E; ring].
  - transitivity (2 * (a * c - b * d) * x + 2 * (b * c + a * d) * y + (d * d - a * a - b * b + c * c) * z); [ring|rewrite E; ring].
Qed.
Lemma spin_scale k q v : spin (qscale k q) v = scale3 (k * k) (spin q v).
Proof. destruct q as [[[a b] c] d], v as [[x y] z]. unquat. repeat apply (f_equal2 pair); ring. Qed.
Lemma qnorm2_scale k q : qnorm2 (qscale k q) = k * k * qnorm2 q.
Proof. destruct q as [[[a b] c] d]. unquat. ring. Qed.
Lemma qnorm2_pos q : 0 <= qnorm2 q.
Proof. destruct q as [[[a b] c] d]. unquat. nra. Qed.
Lemma qnorm2_0 q : qnorm2 q = 0 -> q = ((0, 0, 0), 0).
Proof.
  destruct q as [[[a b] c] d]. unquat. intros H.
  assert (a = 0) by nra. assert (b = 0) by nra. assert (c = 0) by nra. assert (d = 0) by nra. subst. reflexivity.
Qed.
Lemma spin_norm q v : q <> ((0, 0, 0), 0) ->
  spin q v = scale3 (qnorm2 q) (rotate (qscale (/ sqrt (qnorm2 q)) q) v).
Proof.
  intros H. pose proof (qnorm2_pos q) as P.
  assert (P' : 0 < qnorm2 q). { destruct P as [P|P]; [exact P|]. exfalso. apply H, qnorm2_0. auto. }
  pose proof (sqrt_lt_R0 _ P') as Sp. pose proof (sqrt_sqrt _ P) as SS.
  assert (K : / sqrt (qnorm2 q) * / sqrt (qnorm2 q) = / qnorm2 q).
  { rewrite <- Rinv_mult. rewrite SS. reflexivity. }
  rewrite <- spin_rotate.
  - rewrite spin_scale, K. destruct (spin q v) as [[x y] z]. cbn. repeat apply (f_equal2 pair); field; lra.
  - rewrite qnorm2_scale, K. field. lra.
Qed.
Lemma spin_lin q a x b y : spin q (add3 (scale3 a x) (scale3 b y)) = add3 (scale3 a (spin q x)) (scale3 b (spin q y)).
Proof. destruct q as [[[q1 q2] q3] q4], x as [[x1 x2] x3], y as [[y1 y2] y3]. unquat. repeat apply (f_equal2 pair); ring. Qed.
Lemma spin_dot q x y : dot3 (spin q x) (spin q y) = qnorm2 q * qnorm2 q * dot3 x y.
Proof. destruct q as [[[q1 q2] q3] q4], x as [[x1 x2] x3], y as [[y1 y2] y3]. unquat. ring. Qed.
Lemma spin_cross q x y : cross (spin q x) (spin q y) = scale3 (qnorm2 q) (spin q (cross x y)).
Proof. destruct q as [[[q1 q2] q3] q4], x as [[x1 x2] x3], y as [[y1 y2] y3]. unquat. repeat apply (f_equal2 pair); ring. Qed.
Lemma spin_neg q x : spin (qscale (-1) q) x = spin q x.
Proof. rewrite spin_scale. destruct (spin q x) as [[? ?] ?]. cbn. repeat apply (f_equal2 pair); ring. Qed.
Lemma spin_comp p q x : spin q (spin p x) = spin (qmul q p) x.
Proof.
  destruct q as [[[q1 q2] q3] q4], p as [[[p1 p2] p3] p4], x as [[x1 x2] x3]. unquat. repeat apply (f_equal2 pair); ring.
Qed.

Section AQ.
  Variable r32 : R -> xr.
  Local Hint Extern 0 (Num xr) => exact (XR r32) : typeclass_instances.

  Lemma apply_quat_spin q x : apply_quat (fin3 x) (fin4 q) = fin3 (spin q x).
  Proof.
    destruct q as [[[q1 q2] q3] q4], x as [[x1 x2] x3]. unfold apply_quat, hamilton_product. cbn.
    repeat apply (f_equal2 pair); apply (f_equal Fin); field.
  Qed.
  Lemma apply_quat_rotation q x : q <> ((0, 0, 0), 0) ->
    apply_quat (fin3 x) (fin4 q) = fin3 (scale3 (qnorm2 q) (rotate (qscale (/ sqrt (qnorm2 q)) q) x)).
  Proof. intros H. rewrite apply_quat_spin, spin_norm by exact H. reflexivity. Qed.
  Lemma apply_quat_zero x : apply_quat (fin3 x) (fin4 ((0, 0, 0), 0)) = fin3 (0, 0, 0).
  Proof. rewrite apply_quat_spin. destruct x as [[x1 x2] x3]. unquat. cbn. repeat apply (f_equal2 pair); apply (f_equal Fin); ring. Qed.
  Lemma fin3_inj a b : fin3 a = fin3 b -> a = b.
  Proof. destruct a as [[? ?] ?], b as [[? ?] ?]. cbn. congruence. Qed.
  Lemma apply_quat_laws (q : quat) (x y X Y : vec) :
    apply_quat (fin3 x) (fin4 q) = fin3 X -> apply_quat (fin3 y) (fin4 q) = fin3 Y ->
    (forall a b, apply_quat (fin3 (add3 (scale3 a x) (scale3 b y))) (fin4 q) = fin3 (add3 (scale3 a X) (scale3 b Y))) /\
    (qnorm2 q = 1 -> dot3 X Y = dot3 x y /\ apply_quat (fin3 (cross x y)) (fin4 q) = fin3 (cross X Y)) /\
    apply_quat (fin3 x) (fin4 (qscale (-1) q)) = fin3 X /\
    (forall p, apply_quat (fin3 X) (fin4 p) = apply_quat (fin3 x) (fin4 (qmul p q))).
  Proof.
    rewrite !apply_quat_spin. intros HX HY. apply fin3_inj in HX, HY. subst X Y.
    refine (conj _ (conj _ (conj _ _))).
    - intros a b. rewrite ?apply_quat_spin, spin_lin. reflexivity.
    - intros H. rewrite spin_dot, ?apply_quat_spin, spin_cross, H. split; [lra|].
      destruct (spin q (cross x y)) as [[? ?] ?]. cbn. repeat apply (f_equal2 pair); apply (f_equal Fin); ring.
    - rewrite ?apply_quat_spin, spin_neg. reflexivity.
    - intros p. rewrite !apply_quat_spin, spin_comp. reflexivity.
  Qed.
  (** hamilton_product is the quaternion product (scalar first). *)
  Definition fin4w (q : quat) : xr * xr * xr * xr := let '((a, b, c), d) := q in (Fin d, Fin a, Fin b, Fin c).
  Lemma hamilton_qmul p q : hamilton_product (fin4w p) (fin4w q) = fin4w (qmul p q).
  Proof.
    destruct q as [[[q1 q2] q3] q4], p as [[[p1 p2] p3] p4]. unfold hamilton_product. cbn.
    repeat apply (f_equal2 pair); apply (f_equal Fin); ring.
  Qed.
End AQ.

(** ** Euler steps *)
Section X.
  Variable rd : R -> R.
  Local Hint Extern 0 (Num xr) => exact (XR (fun x => Fin (rd x))) : typeclass_instances.

  Definition sd_next (m i0 i1 i2 n : R) (lim : vec) (body : bool) (h : R) (p : vec) (q : quat) (v w f M : vec) : list R :=
    sd_state (add3 p (scale3 h (map3 rd v))) (qadd q (qscale h (map4 rd (qscale (1/2) (qmul q (w, 0))))))
      (add3 v (scale3 h (add3 (map3 rd (sd_cw n p v)) (scale3 (/ m) (sd_thrust body q f)))))
      (clip3 lim (add3 w (scale3 h (stop3 lim w (add3 (map3 rd (sd_gyro i0 i1 i2 w)) (div3 M i0 i1 i2)))))).

  Lemma sixdof_euler (w0 : world xr) m I i0 i1 i2 lim n body samples e :
    m <> 0 -> i0 <> 0 -> i1 <> 0 -> i2 <> 0 -> m00 I = Fin i0 -> m11 I = Fin i1 -> m22 I = Fin i2 -> (samples <= 0)%Z ->
    sixdof_dyn (Fin m) I (fin3 lim) (Fin n) body samples "Euler" = Ok (e_dyn e) ->
    forall flo fhi mlo mhi, e_cmin e = A1 (map Fin (sd_ctrl flo mlo)) -> e_cmax e = A1 (map Fin (sd_ctrl fhi mhi)) ->
    forall p q v w f M h, e_state e = A1 (map Fin (sd_state p q v w)) ->
    let o := entity_step w0 e (Fin h) (AArr (A1 (map Fin (sd_ctrl f M)))) in
    o_res o = Ok tt /\
    e_sdot (o_entity o) = A1 (map Fin (sd_rates rd m i0 i1 i2 n lim body p q v w (clipc flo fhi f) (clipc mlo mhi M))) /\
    e_state (o_entity o) = A1 (map Fin (sd_next m i0 i1 i2 n lim body h p q v w (clipc flo fhi f) (clipc mlo mhi M))).
  Proof.
    intros Hm H0 H1 H2 E0 E1 E2 Sa E flo fhi mlo mhi C1 C2 p q v w f M h Es o. subst o.
    destruct lim as [[l0 l1] l2]. cbn [fin3] in E.
    destruct (sixdof_dyn_inv _ _ _ _ _ _ _ _ _ _ E) as (D1 & D2 & D3 & D4 & D5 & D6 & D7 & _).
    pose proof (sixdof_csd rd m I i0 i1 i2 l0 l1 l2 n body _ _ _ Hm H0 H1 H2 E0 E1 E2 E n0 p q v w
      (clipc flo fhi f) (clipc mlo mhi M)) as Q.
    destruct p as [[x y] z], q as [[[q1 q2] q3] q4], v as [[vx vy] vz], w as [[wx wy] wz], f as [[fx fy] fz], M as [[mx my] mz].
    destruct flo as [[? ?] ?], fhi as [[? ?] ?], mlo as [[? ?] ?], mhi as [[? ?] ?].
    edestruct (euler_list0 w0 e (Fin h) (map Fin (sd_state (x, y, z) ((q1, q2, q3), q4) (vx, vy, vz) (wx, wy, wz))) (map Fin (sd_ctrl (fx, fy, fz) (mx, my, mz)))) as (R1 & R2 & R3); [exact D7|rewrite D6; exact Sa|exact Es|..|].
    1: rewrite C1; reflexivity. 1: rewrite C2; reflexivity.
    1:{ rewrite C1, C2. cbn [sd_ctrl map expand clip_list]. rewrite !clip1_Fin. exact Q. }
    1:{ rewrite !map_length. unfold sd_rates. destruct (sd_thrust _ _ _) as [[? ?] ?]. reflexivity. }
    1: rewrite D1; reflexivity. 1: rewrite D2; reflexivity. 1: exact D5.
    split; [exact R1|]. split; [exact R2|]. rewrite R3, D1, D2.
    unfold sd_rates, sd_next. destruct (sd_thrust body _ _) as [[tx ty] tz].
    cbv [sd_state map3 map4 qscale qmul sd_cw sd_gyro stop3 div3 add3 scale3 cross dot3 fst snd clipc clip3 qadd].
    cbn [expand clip_list map zipw nadd nmul XR xadd xmul nneg xneg].
    change (@nninf xr _) with NInf. change (@npinf xr _) with PInf. rewrite !clip1_none, !clip1_Fin. reflexivity.
  Qed.
End X.

(** ** Exact casts *)
Section I.
  Local Hint Extern 0 (Num xr) => exact (XR Fin) : typeclass_instances.

  Lemma sd_nth (p : vec) (q : quat) (v w : vec) :
    sd_quat (sd_state p q v w) = q /\ sd_rate (sd_state p q v w) = w /\ length (sd_state p q v w) = 13%nat.
  Proof. dvec p. destruct q as [[[? ?] ?] ?]. dvec v. dvec w. repeat split. Qed.
  Lemma sd_nths (p : vec) (q : quat) (v w : vec) :
    nth 3 (sd_state p q v w) 0 = fst (fst (fst q)) /\ nth 4 (sd_state p q v w) 0 = snd (fst (fst q)) /\
    nth 5 (sd_state p q v w) 0 = snd (fst q) /\ nth 6 (sd_state p q v w) 0 = snd q /\
    nth 10 (sd_state p q v w) 0 = fst (fst w) /\ nth 11 (sd_state p q v w) 0 = snd (fst w) /\
    nth 12 (sd_state p q v w) 0 = snd w.
  Proof. dvec p. destruct q as [[[? ?] ?] ?]. dvec v. dvec w. repeat split. Qed.
  Lemma sd_split (s : list R) : length s = 13%nat -> exists p q v w, s = sd_state p q v w.
  Proof.
    intros L. do 13 (destruct s as [|? s]; [discriminate|]). destruct s; [|discriminate].
    match goal with |- exists p q v w, [?a; ?b; ?c; ?d; ?e; ?f; ?g; ?h; ?i; ?j; ?k; ?l; ?m] = _ =>
      exists (a, b, c), ((d, e, f), g), (h, i, j), (k, l, m) end. reflexivity.
  Qed.

  Lemma sixdof_csd_exact m I i0 i1 i2 lim n body samples method d : sd_ok m I i0 i1 i2 ->
    sixdof_dyn (Fin m) I (fin3 lim) (Fin n) body samples method = Ok d ->
    forall t p q v w f M,
      compute_state_dot d t (A1 (map Fin (sd_state p q v w))) (A1 (map Fin (sd_ctrl f M))) =
      Ok (A1 (map Fin (sd_state v (qscale (1/2) (qmul q (w, 0)))
        (add3 (sd_cw n p v) (scale3 (/ m) (sd_thrust body q f)))
        (stop3 lim w (add3 (sd_gyro i0 i1 i2 w) (div3 M i0 i1 i2)))))).
  Proof.
    intros (Hm & H0 & H1 & H2 & E0 & E1 & E2) E t p q v w f M. destruct lim as [[l0 l1] l2].
    etransitivity; [exact (sixdof_csd (fun x => x) m I i0 i1 i2 l0 l1 l2 n body _ _ d Hm H0 H1 H2 E0 E1 E2 E t p q v w f M)|].
    unfold sd_rates. destruct p as [[x y] z], q as [[[q1 q2] q3] q4], v as [[vx vy] vz], w as [[wx wy] wz], M as [[mx my] mz].
    reflexivity.
  Qed.

  (** *** Quaternion norm *)
  Lemma quat_orth q w : let d := qscale (1/2) (qmul q (w, 0)) in dot3 (fst q) (fst d) + snd q * snd d = 0.
  Proof. destruct q as [[[q1 q2] q3] q4], w as [[wx wy] wz]. unquat. field. Qed.
  Lemma quat_growth q w h :
    qnorm2 (qadd q (qscale h (qscale (1/2) (qmul q (w, 0))))) = qnorm2 q * (1 + h^2 * dot3 w w / 4).
  Proof. destruct q as [[[q1 q2] q3] q4], w as [[wx wy] wz]. cbv [qadd]. unquat. field. Qed.

  Lemma sixdof_exact_norm m I i0 i1 i2 lim n body samples method d u sol : sd_ok m I i0 i1 i2 ->
    sixdof_dyn (Fin m) I (fin3 lim) (Fin n) body samples method = Ok d -> length u = 6%nat ->
    length (sol 0) = 13%nat -> solves d (A1 (map Fin u)) sol ->
    forall t, qnorm2 (sd_quat (sol t)) = qnorm2 (sd_quat (sol 0)).
  Proof.
    intros Ok E Lu L S.
    assert (exists f M, u = sd_ctrl f M) as (f & M & ->).
    { do 6 (destruct u as [|? u]; [discriminate|]). destruct u; [|discriminate].
      match goal with |- exists f M, [?a; ?b; ?c; ?d; ?e; ?f] = _ => exists (a, b, c), (d, e, f) end. reflexivity. }
    set (g := fun i t => nth i (sol t) 0).
    assert (D : forall t, is_derive (g 3%nat) t (1/2 * (g 6%nat t * g 10%nat t - g 5%nat t * g 11%nat t + g 4%nat t * g 12%nat t)) /\
      is_derive (g 4%nat) t (1/2 * (g 5%nat t * g 10%nat t + g 6%nat t * g 11%nat t - g 3%nat t * g 12%nat t)) /\
      is_derive (g 5%nat) t (1/2 * (- g 4%nat t * g 10%nat t + g 3%nat t * g 11%nat t + g 6%nat t * g 12%nat t)) /\
      is_derive (g 6%nat) t (1/2 * (- g 3%nat t * g 10%nat t - g 4%nat t * g 11%nat t - g 5%nat t * g 12%nat t))).
    { intros t. destruct (S t) as (ds & L1 & L2 & C & D). rewrite L in *.
      destruct (sd_split (sol t) L1) as (p & q & v & w & Eq). rewrite Eq in C.
      rewrite (sixdof_csd_exact _ _ _ _ _ _ _ _ _ _ _ Ok E) in C.
      apply Ok_Fin_inj in C. subst ds.
      pose proof (D 3%nat ltac:(lia)) as D3. pose proof (D 4%nat ltac:(lia)) as D4.
      pose proof (D 5%nat ltac:(lia)) as D5. pose proof (D 6%nat ltac:(lia)) as D6. clear D.
      destruct (sd_nths v (qscale (1 / 2) (qmul q (w, 0))) (add3 (sd_cw n p v) (scale3 (/ m) (sd_thrust body q f)))
        (stop3 lim w (add3 (sd_gyro i0 i1 i2 w) (div3 M i0 i1 i2)))) as (N3 & N4 & N5 & N6 & _).
      rewrite N3 in D3. rewrite N4 in D4. rewrite N5 in D5. rewrite N6 in D6.
      unfold g. rewrite Eq. clear - D3 D4 D5 D6.
      destruct p as [[x y] z], q as [[[q1 q2] q3] q4], v as [[vx vy] vz], w as [[wx wy] wz].
      cbn [sd_state nth].
      refine (conj _ (conj _ (conj _ _))).
      - evar_last; [exact D3|unquat; ring].
      - evar_last; [exact D4|unquat; ring].
      - evar_last; [exact D5|unquat; ring].
      - evar_last; [exact D6|unquat; ring]. }
    intros t.
    assert (Q : forall t, qnorm2 (sd_quat (sol t)) = g 3%nat t ^ 2 + g 4%nat t ^ 2 + g 5%nat t ^ 2 + g 6%nat t ^ 2).
    { intros u. unfold sd_quat, g. unquat. ring. }
    rewrite !Q. clearbody g. clear Q.
    apply (const_of_derive (fun t => g 3%nat t ^ 2 + g 4%nat t ^ 2 + g 5%nat t ^ 2 + g 6%nat t ^ 2)).
    intros u. destruct (D u) as (D3 & D4 & D5 & D6).
    auto_derive; [repeat split; eexists; eassumption|].
    rwD D3. rwD D4. rwD D5. rwD D6. field.
  Qed.

  (** *** The spacecraft entity *)
  Lemma sixdof_limits m I i0 i1 i2 A V al vl iw aw vw thr body n samples method p q v w e :
    sd_ok m I i0 i1 i2 -> limit_arg A al -> limit_arg V vl ->
    sixdof_build m I A V iw aw vw thr body n samples method p q v w = Ok e ->
    let acc := wheel_limit al iw aw i0 i1 i2 in
    sixdof_dyn (Fin m) I (fin3 (wheel_limit vl iw vw i0 i1 i2)) (Fin n) body samples method = Ok (e_dyn e) /\
    e_cmax e = A1 (map Fin (sd_ctrl (thr, thr, thr) (inertia_mul i0 i1 i2 acc))) /\
    e_cmin e = A1 (map Fin (sd_ctrl (neg3 (thr, thr, thr)) (neg3 (inertia_mul i0 i1 i2 acc)))) /\
    e_state e = A1 (map Fin (sd_state p q v w)).
  Proof.
    intros (Hm & H0 & H1 & H2 & E0 & E1 & E2) La Lv E acc. destruct al as [[a0 a1] a2], vl as [[v0 v1] v2].
    destruct p as [[x y] z], q as [[[q1 q2] q3] q4], v as [[vx vy] vz], w as [[wx wy] wz]. unfold sixdof_build in E.
    destruct (sixdof_craft_inv _ _ _ _ _ _ _ _ _ _ _ _ _ _ _ _ _ _ _ _ _ _ _ _ _ _ E) as
      (b0 & b1 & b2 & c0 & c1 & c2 & da & dv & P1 & P2 & P3 & P4 & D & Cx & Cm & _ & Es & _).
    assert (Arg : forall (A : numarg xr) (dd : nd xr) (x0 x1 x2 y0 y1 y2 : xr), axis_limits A x0 x1 x2 -> number_list_to_np A [3%nat] = Ok dd ->
      nd_data dd = Some [y0; y1; y2] -> y0 = x0 /\ y1 = x1 /\ y2 = x2).
    { clear. intros A dd x0 x1 x2 y0 y1 y2 [->|(p & -> & -> & -> & ->)] B C; cbn in B; injection B as <-; cbn in C; injection C as <- <- <-; auto. }
    destruct (Arg _ _ _ _ _ _ _ _ La P1 P2) as (-> & -> & ->).
    destruct (Arg _ _ _ _ _ _ _ _ Lv P3 P4) as (-> & -> & ->). clear Arg.
    assert (M : forall a iw cap i, i <> 0 -> sixdof_limit (Fin a) (Fin iw) (Fin cap) (Fin i) = Fin (Rmin a (iw * cap / i))).
    { intros a iw' cap i Hi. unfold sixdof_limit, py_min, Rmin. cbn. rewrite Req_bool_false by auto. cbn.
      destruct (Rlt_bool_spec (iw' * cap / i) a), (Rle_dec a (iw' * cap / i)); f_equal; lra. }
    rewrite E0, E1, E2, !M in D, Cx by auto. split; [exact D|].
    split; [rewrite Cx; cbn; fin_list; reflexivity || ring|]. split.
    - rewrite Cm, Cx. cbn. fin_list; lra.
    - rewrite Es. reflexivity.
  Qed.

  Lemma sixdof_step (w0 : world xr) m I i0 i1 i2 lim n body samples e : sd_ok m I i0 i1 i2 -> (samples <= 0)%Z ->
    sixdof_dyn (Fin m) I (fin3 lim) (Fin n) body samples "Euler" = Ok (e_dyn e) ->
    forall flo fhi mlo mhi, e_cmin e = A1 (map Fin (sd_ctrl flo mlo)) -> e_cmax e = A1 (map Fin (sd_ctrl fhi mhi)) ->
    forall p q v w f M h, e_state e = A1 (map Fin (sd_state p q v w)) ->
    let o := entity_step w0 e (Fin h) (AArr (A1 (map Fin (sd_ctrl f M)))) in
    let r := stop3 lim w (add3 (sd_gyro i0 i1 i2 w) (div3 (clipc mlo mhi M) i0 i1 i2)) in
    let a := add3 (sd_cw n p v) (scale3 (/ m) (sd_thrust body q (clipc flo fhi f))) in
    o_res o = Ok tt /\
    e_sdot (o_entity o) = A1 (map Fin (sd_state v (qscale (1/2) (qmul q (w, 0))) a r)) /\
    e_state (o_entity o) = A1 (map Fin
      (sd_state (add3 p (scale3 h v)) (qadd q (qscale h (qscale (1/2) (qmul q (w, 0))))) (add3 v (scale3 h a))
         (clip3 lim (add3 w (scale3 h r))))).
  Proof.
    intros (Hm & H0 & H1 & H2 & E0 & E1 & E2) Sa E flo fhi mlo mhi C1 C2 p q v w f M h Es.
    destruct (sixdof_euler (fun x => x) w0 m I i0 i1 i2 lim n body samples e Hm H0 H1 H2 E0 E1 E2 Sa E flo fhi mlo mhi C1 C2
      p q v w f M h Es) as (R1 & R2 & R3).
    assert (M3 : forall v, map3 (fun x => x) v = v) by (intros [[? ?] ?]; reflexivity).
    assert (M4 : forall v, map4 (fun x => x) v = v) by (intros [[[? ?] ?] ?]; reflexivity).
    unfold sd_rates in R2. unfold sd_next in R3. rewrite !M3, M4 in R2, R3. auto.
  Qed.

  Lemma clip3_within lim x w : within lim w -> within lim (clip3 lim x).
  Proof.
    destruct lim as [[? ?] ?], w as [[? ?] ?], x as [[? ?] ?]. cbn. intros (A & B & C).
    repeat split; apply clipR_between; lra.
  Qed.
  Lemma clip3_id lim w : within lim w -> clip3 lim w = w.
  Proof. destruct lim as [[? ?] ?], w as [[? ?] ?]. cbn. intros (A & B & C). rewrite !clipR_id; auto. Qed.
  Lemma within_dot lim w : within lim w -> dot3 w w <= dot3 lim lim.
  Proof. destruct lim as [[? ?] ?], w as [[? ?] ?]. cbn. intros (A & B & C).
    assert (Sq : forall a b, - a <= b <= a -> b * b <= a * a) by (intros; nra).
    apply Sq in A. apply Sq in B. apply Sq in C. lra.
  Qed.
  Lemma growth_pos w2 hs : 0 <= w2 -> 1 <= growth w2 hs.
  Proof.
    intros H. induction hs as [|h hs IH]; [cbn; lra|]. change (1 <= (1 + h^2 * w2 / 4) * growth w2 hs).
    assert (0 <= h * h) by nra. assert (0 <= h * h * w2) by (apply Rmult_le_pos; auto).
    assert (0 <= h^2 * w2 / 4) by (replace (h^2 * w2) with (h * h * w2) by ring; lra). nra.
  Qed.
  Lemma dot3_pos w : 0 <= dot3 w w.
  Proof. destruct w as [[? ?] ?]. cbn. nra. Qed.

  Lemma sixdof_run_norm (w0 : world xr) m I i0 i1 i2 lim n body samples flo fhi mlo mhi : sd_ok m I i0 i1 i2 -> (samples <= 0)%Z ->
    forall l e p q v w,
    sixdof_dyn (Fin m) I (fin3 lim) (Fin n) body samples "Euler" = Ok (e_dyn e) ->
    e_cmin e = A1 (map Fin (sd_ctrl flo mlo)) -> e_cmax e = A1 (map Fin (sd_ctrl fhi mhi)) ->
    e_state e = A1 (map Fin (sd_state p q v w)) ->
    exists e' p' q' v' w', run w0 e (sd_acts l) = Ok e' /\
      e_state e' = A1 (map Fin (sd_state p' q' v' w')) /\
      qnorm2 q <= qnorm2 q' /\
      (within lim w -> within lim w' /\ qnorm2 q' <= qnorm2 q * growth (dot3 lim lim) (steps_of l)) /\
      (i0 = i1 -> i1 = i2 -> within lim w -> (forall h f M, In (h, f, M) l -> clipc mlo mhi M = (0, 0, 0)) ->
       w' = w /\ qnorm2 q' = qnorm2 q * growth (dot3 w w) (steps_of l)).
  Proof.
    intros Hok Sa. induction l as [|[[h f] M] l IH]; intros e p q v w E C1 C2 Es.
    - exists e, p, q, v, w. cbn. rewrite Rmult_1_r. repeat split; auto; lra.
    - destruct (sixdof_step w0 m I i0 i1 i2 lim n body samples e Hok Sa E _ _ _ _ C1 C2 p q v w f M h Es) as (R1 & _ & R3).
      set (o := entity_step _ _ _ _) in *.
      destruct (entity_step_config w0 e (Fin h) (AArr (A1 (map Fin (sd_ctrl f M))))) as (Cd & Cdef & Ca & Cb & _).
      fold o in Cd, Cdef, Ca, Cb.
      assert (Cc : e_cmin (o_entity o) = e_cmin e /\ e_cmax (o_entity o) = e_cmax e) by (split; congruence).
      destruct (IH (o_entity o) _ _ _ _ ltac:(rewrite Cd; exact E) ltac:(rewrite (proj1 Cc); exact C1)
        ltac:(rewrite (proj2 Cc); exact C2) R3) as (e' & p' & q' & v' & w' & Q1 & Q2 & Q3 & Q4 & Q5).
      rewrite quat_growth in Q3, Q4, Q5.
      exists e', p', q', v', w'. split.
      { cbn [sd_acts map run]. fold o. rewrite R1. cbn [bind]. exact Q1. }
      split; [exact Q2|]. pose proof (qnorm2_pos q) as Pq. pose proof (dot3_pos w) as Pw.
      assert (Ph : 0 <= h ^ 2) by nra.
      split; [|split].
      + eapply Rle_trans; [|exact Q3]. assert (0 <= h^2 * dot3 w w) by nra. nra.
      + intros W. destruct (Q4 (clip3_within lim _ w W)) as [W' B]. split; [exact W'|].
        pose proof (within_dot _ _ W) as Wd. 
        pose proof (growth_pos (dot3 lim lim) (steps_of l) (dot3_pos lim)) as G.
        eapply Rle_trans; [exact B|]. 
        change (growth (dot3 lim lim) (steps_of ((h, f, M) :: l))) with
          ((1 + h^2 * dot3 lim lim / 4) * growth (dot3 lim lim) (steps_of l)).
        replace (qnorm2 q * ((1 + h ^ 2 * dot3 lim lim / 4) * growth (dot3 lim lim) (steps_of l)))
          with (qnorm2 q * (1 + h ^ 2 * dot3 lim lim / 4) * growth (dot3 lim lim) (steps_of l)) by ring.
        apply Rmult_le_compat_r; [lra|]. apply Rmult_le_compat_l; [lra|].
        assert (h^2 * dot3 w w <= h^2 * dot3 lim lim) by (apply Rmult_le_compat_l; lra). lra.
      + intros S1 S2 W Z.
        assert (K : clip3 lim (add3 w (scale3 h (stop3 lim w (add3 (sd_gyro i0 i1 i2 w) (div3 (clipc mlo mhi M) i0 i1 i2))))) = w).
        { rewrite (Z h f M) by (left; reflexivity). subst i1 i2. clear - W Hok. destruct Hok as (_ & H0 & _).
          assert (St : forall lo hi x r, r = 0 -> stopR lo hi x r = 0).
          { intros. subst. unfold stopR. rewrite Rmin_left, Rmax_left by lra. destruct (Rle_dec _ _); [|destruct (Rle_dec _ _)]; reflexivity. }
          pose proof (clip3_id lim w W) as Ci.
          destruct lim as [[l0 l1] l2], w as [[wx wy] wz]. cbn [sd_gyro div3 add3 stop3 scale3].
          rewrite !St by (field; exact H0). rewrite !Rmult_0_r, !Rplus_0_r. exact Ci. }
        rewrite K in Q5. destruct (Q5 S1 S2 W) as [Q6 Q7].
        { intros h' f' M' Hin. apply (Z h' f' M'). right. exact Hin. }
        split; [exact Q6|]. rewrite Q7. 
        change (growth (dot3 w w) (steps_of ((h, f, M) :: l))) with
          ((1 + h^2 * dot3 w w / 4) * growth (dot3 w w) (steps_of l)). ring.
  Qed.

  Lemma from_quat_spec q :
    (q = ((0, 0, 0), 0) -> from_quat (Fin 0) (Fin 0) (Fin 0) (Fin 0) = Err ValueError) /\
    (q <> ((0, 0, 0), 0) -> exists u, qnorm2 u = 1 /\
      (let '((a, b, c), d) := q in from_quat (Fin a) (Fin b) (Fin c) (Fin d)) = Ok (fin4 u) /\
      forall x, apply_quat (fin3 x) (fin4 q) = fin3 (scale3 (qnorm2 q) (rotate u x))).
  Proof.
    split.
    - intros _. unfold from_quat. cbn. replace (0 * 0 + 0 * 0 + 0 * 0 + 0 * 0) with 0 by ring. rewrite Rlt_bool_false, sqrt_0 by lra. cbn. rewrite Req_bool_true by lra. reflexivity.
    - intros H. exists (qscale (/ sqrt (qnorm2 q)) q).
      pose proof (qnorm2_pos q) as P.
      assert (P' : 0 < qnorm2 q). { destruct P as [P|P]; [exact P|]. exfalso. apply H, qnorm2_0. auto. }
      pose proof (sqrt_lt_R0 _ P') as Sp. pose proof (sqrt_sqrt _ P) as SS.
      split; [|split].
      + rewrite qnorm2_scale, <- Rinv_mult, SS. field. lra.
      + destruct q as [[[a b] c] d]. unfold from_quat. cbn.
        assert (E : a * a + b * b + c * c + d * d = qnorm2 ((a, b, c), d)) by (unquat; ring).
        rewrite E. set (k := qnorm2 _) in *. rewrite !Rlt_bool_false by lra. set (r := sqrt k) in *.
        cbn. rewrite !Req_bool_false by lra.
        apply (f_equal Ok). repeat apply (f_equal2 pair); apply (f_equal Fin); field; lra.
      + intros x. apply apply_quat_rotation, H.
  Qed.

  Lemma sixdof_craft_ok m I A V al vl iw aw vw thr body n samples method p q v w : m <> 0 ->
    limit_arg A al -> limit_arg V vl ->
    exists e, sixdof_build m I A V iw aw vw thr body n samples method p q v w = Ok e.
  Proof.
    intros Hm La Lv. destruct al as [[a0 a1] a2], vl as [[v0 v1] v2].
    destruct p as [[x y] z], q as [[[q1 q2] q3] q4], v as [[vx vy] vz], w as [[wx wy] wz].
    unfold sixdof_build, sixdof_spacecraft.
    assert (Arg : forall (A : numarg xr) (x0 x1 x2 : xr), axis_limits A x0 x1 x2 -> exists dd, number_list_to_np A [3%nat] = Ok dd /\ limit3 dd = Ok (x0, x1, x2)).
    { clear. intros A x0 x1 x2 [->|(p & -> & -> & -> & ->)]; eexists; (split; [reflexivity|]); reflexivity. }
    destruct (Arg _ _ _ _ La) as (da & -> & Ea). destruct (Arg _ _ _ _ Lv) as (dv & -> & Ev). cbn [bind].
    rewrite Ea, Ev. cbn [bind]. unfold sixdof_dyn, generate_cwh_matrices, pydiv. cbn. rewrite (Req_bool_false m (0/1)) by lra. cbn. eexists. reflexivity.
  Qed.

  Lemma sixdof_craft_run (w0 : world xr) m I i0 i1 i2 A V al vl iw aw vw thr body n samples p q v w e l :
    sd_ok m I i0 i1 i2 -> (samples <= 0)%Z -> limit_arg A al -> limit_arg V vl ->
    sixdof_build m I A V iw aw vw thr body n samples "Euler" p q v w = Ok e ->
    let lim := wheel_limit vl iw vw i0 i1 i2 in
    exists e' p' q' v' w', run w0 e (sd_acts l) = Ok e' /\
      e_state e' = A1 (map Fin (sd_state p' q' v' w')) /\
      qnorm2 q <= qnorm2 q' /\
      (within lim w -> within lim w' /\ qnorm2 q' <= qnorm2 q * growth (dot3 lim lim) (steps_of l)) /\
      (i0 = i1 -> i1 = i2 -> within lim w -> within al (0, 0, 0) -> 0 < i0 -> 0 <= iw * aw ->
       (forall h f M, In (h, f, M) l -> M = (0, 0, 0)) ->
       w' = w /\ qnorm2 q' = qnorm2 q * growth (dot3 w w) (steps_of l)).
  Proof.
    intros Hok Sa La Lv E lim.
    destruct (sixdof_limits _ _ _ _ _ _ _ _ _ _ _ _ _ _ _ _ _ _ _ _ _ _ Hok La Lv E) as (D & Cx & Cm & Es).
    destruct (sixdof_run_norm w0 m I i0 i1 i2 lim n body samples _ _ _ _ Hok Sa l e _ _ _ _ D Cm Cx Es)
      as (e' & p' & q' & v' & w' & R1 & R2 & R3 & R4 & R5).
    exists e', p', q', v', w'. split; [exact R1|]. split; [exact R2|]. split; [exact R3|]. split; [exact R4|].
    intros S1 S2 W Al Hi Hw Z. apply R5; auto. intros h f M Hin. rewrite (Z h f M Hin).
    clear - S1 S2 Al Hi Hw. subst i1 i2. destruct al as [[a0 a1] a2]. cbv [within] in Al.
    assert (Q : 0 <= iw * aw / i0). { apply Rmult_le_pos; [auto|]. left. apply Rinv_0_lt_compat, Hi. }
    cbv [clipc neg3 scale3 inertia_mul wheel_limit].
    assert (C : forall a, 0 <= a -> clipR (-1 * (i0 * Rmin a (iw * aw / i0))) (i0 * Rmin a (iw * aw / i0)) 0 = 0).
    { intros a Ha. assert (0 <= Rmin a (iw * aw / i0)) by (apply Rmin_glb; auto). rewrite clipR_id; [reflexivity|nra]. }
    rewrite !C by lra. reflexivity.
  Qed.

  (** *** Default attitude *)
  Lemma sixdof_zero_inert m I i0 i1 i2 lim n samples method d : sd_ok m I i0 i1 i2 ->
    sixdof_dyn (Fin m) I (fin3 lim) (Fin n) true samples method = Ok d ->
    forall t p v w f f' M,
      compute_state_dot d t (A1 (map Fin (sd_state p ((0, 0, 0), 0) v w))) (A1 (map Fin (sd_ctrl f M))) =
      compute_state_dot d t (A1 (map Fin (sd_state p ((0, 0, 0), 0) v w))) (A1 (map Fin (sd_ctrl f' M))).
  Proof.
    intros Ok E t p v w f f' M. rewrite !(sixdof_csd_exact _ _ _ _ _ _ _ _ _ _ _ Ok E).  
    assert (Z : forall f, sd_thrust true ((0, 0, 0), 0) f = (0, 0, 0)).
    { intros [[? ?] ?]. unfold sd_thrust. unquat. repeat apply (f_equal2 pair); ring. }
    rewrite !Z. reflexivity.
  Qed.
  Lemma spin_zero f : spin ((0, 0, 0), 0) f = (0, 0, 0).
  Proof. destruct f as [[? ?] ?]. unquat. repeat apply (f_equal2 pair); ring. Qed.
  Lemma sixdof_zero_run (w0 : world xr) m I i0 i1 i2 lim n samples flo fhi mlo mhi : sd_ok m I i0 i1 i2 -> (samples <= 0)%Z ->
    forall l l' e e' p v w, same_but_thrust l l' ->
    sixdof_dyn (Fin m) I (fin3 lim) (Fin n) true samples "Euler" = Ok (e_dyn e) ->
    e_cmin e = A1 (map Fin (sd_ctrl flo mlo)) -> e_cmax e = A1 (map Fin (sd_ctrl fhi mhi)) ->
    same_config e' e ->
    e_state e = A1 (map Fin (sd_state p ((0, 0, 0), 0) v w)) -> e_state e' = e_state e ->
    exists e1 e2 p1 v1 w1, run w0 e (sd_acts l) = Ok e1 /\ run w0 e' (sd_acts l') = Ok e2 /\
      e_state e1 = A1 (map Fin (sd_state p1 ((0, 0, 0), 0) v1 w1)) /\ e_state e2 = e_state e1.
  Proof.
    intros Hok Sa. induction l as [|[[h f] M] l IH]; intros [|[[h' f'] M'] l'] e e' p v w Sm E C1 C2 Cc Es Es'; try discriminate.
    - exists e, e', p, v, w. auto.
    - unfold same_but_thrust in Sm. cbn in Sm. injection Sm as <- <- Sm.
      destruct Cc as (G1 & G2 & G3 & G4 & G5).
      assert (E' : sixdof_dyn (Fin m) I (fin3 lim) (Fin n) true samples "Euler" = Ok (e_dyn e')) by (rewrite G1; exact E).
      assert (C1' : e_cmin e' = A1 (map Fin (sd_ctrl flo mlo))) by congruence.
      assert (C2' : e_cmax e' = A1 (map Fin (sd_ctrl fhi mhi))) by congruence.
      assert (Es2 : e_state e' = A1 (map Fin (sd_state p ((0, 0, 0), 0) v w))) by congruence.
      destruct (sixdof_step w0 m I i0 i1 i2 lim n true samples e Hok Sa E _ _ _ _ C1 C2 p _ v w f M h Es) as (R1 & _ & R3).
      destruct (sixdof_step w0 m I i0 i1 i2 lim n true samples e' Hok Sa E' _ _ _ _ C1' C2' p _ v w f' M h Es2) as (R1' & _ & R3').
      set (o := entity_step _ e _ _) in *. set (o' := entity_step _ e' _ _) in *.
      pose proof (entity_step_config w0 e (Fin h) (AArr (A1 (map Fin (sd_ctrl f M))))) as (K1 & K2 & K3 & K4 & K5).
      pose proof (entity_step_config w0 e' (Fin h) (AArr (A1 (map Fin (sd_ctrl f' M))))) as (J1 & J2 & J3 & J4 & J5).
      fold o in K1, K2, K3, K4, K5. fold o' in J1, J2, J3, J4, J5.
      assert (Z : qadd ((0, 0, 0), 0) (qscale h (qscale (1/2) (qmul ((0, 0, 0), 0) (w, 0)))) = ((0, 0, 0), 0)).
      { destruct w as [[? ?] ?]. cbv [qadd]. unquat. repeat apply (f_equal2 pair); ring. }
      unfold sd_thrust in R3, R3'. rewrite Z, !spin_zero in R3, R3'.
      assert (Sc : same_config (o_entity o') (o_entity o)) by (repeat split; congruence).
      destruct (IH l' (o_entity o) (o_entity o') _ _ _ Sm ltac:(rewrite K1; exact E) ltac:(rewrite K3; exact C1)
        ltac:(rewrite K4; exact C2) Sc R3 ltac:(rewrite R3, R3'; reflexivity)) as (e1 & e2 & p1 & v1 & w1 & Q1 & Q2 & Q3 & Q4).
      exists e1, e2, p1, v1, w1.
      split; [cbn [sd_acts map run]; fold o; rewrite R1; exact Q1|].
      split; [cbn [sd_acts map run]; fold o'; rewrite R1'; exact Q2|]. auto.
  Qed.

  Lemma sixdof_zero_attitude (w0 : world xr) m I i0 i1 i2 A V al vl iw aw vw thr n samples p v w :
    sd_ok m I i0 i1 i2 -> (samples <= 0)%Z -> limit_arg A al -> limit_arg V vl ->
    exists e, sixdof_build m I A V iw aw vw thr true n samples "Euler" p ((0, 0, 0), 0) v w = Ok e /\
      sixdof_quaternion e = Err ValueError /\
      forall l l', same_but_thrust l l' -> exists e1 e2,
        run w0 e (sd_acts l) = Ok e1 /\ run w0 e (sd_acts l') = Ok e2 /\
        e_state e1 = e_state e2 /\ sixdof_quaternion e1 = Err ValueError.
  Proof.
    intros Hok Sa La Lv. destruct (sixdof_craft_ok m I A V al vl iw aw vw thr true n samples "Euler" p ((0, 0, 0), 0) v w (proj1 Hok) La Lv) as [e E].
    exists e. split; [exact E|].
    destruct (sixdof_limits _ _ _ _ _ _ _ _ _ _ _ _ _ _ _ _ _ _ _ _ _ _ Hok La Lv E) as (D & Cx & Cm & Es).
    assert (Qe : forall e p v w, e_state e = A1 (map Fin (sd_state p ((0, 0, 0), 0) v w)) -> sixdof_quaternion e = Err ValueError).
    { clear. intros e p v w Es. unfold sixdof_quaternion. rewrite Es. destruct p as [[? ?] ?], v as [[? ?] ?], w as [[? ?] ?].
      change (bind (from_quat (Fin 0) (Fin 0) (Fin 0) (Fin 0)) (fun '(qa, qb, qc, qd) => Ok (A1 [qa; qb; qc; qd])) = Err ValueError).
      rewrite (proj1 (from_quat_spec ((0,0,0),0)) eq_refl). reflexivity. }
    split; [eapply Qe; exact Es|]. intros l l' Sm.
    assert (Sc : same_config e e) by (repeat split).
    destruct (sixdof_zero_run w0 m I i0 i1 i2 _ n samples _ _ _ _ Hok Sa l l' e e p v w Sm D Cm Cx Sc Es eq_refl)
      as (e1 & e2 & p1 & v1 & w1 & R1 & R2 & R3 & R4).
    exists e1, e2. split; [exact R1|]. split; [exact R2|]. split; [congruence|]. eapply Qe; exact R3.
  Qed.

  (** The default spacecraft (all state fields omitted). *)
  Lemma sixdof_default_refuted (w0 : world xr) : exists e,
    sixdof_spacecraft (Fin 12) SD_INERTIA (NAnum (PyFloat SD_ANG_ACC_LIMIT)) (NAnum (PyFloat SD_ANG_VEL_LIMIT))
      SD_INERTIA_WHEEL SD_ACC_LIMIT_WHEEL SD_VEL_LIMIT_WHEEL SD_THRUST_LIMIT true (Fin (1027/1000000)) 0 "Euler"
      (Fin 0) (Fin 0) (Fin 0) (Fin 0) (Fin 0) (Fin 0) (Fin 0) (Fin 0) (Fin 0) (Fin 0) (Fin 0) (Fin 0) (Fin 0) = Ok e /\
    sixdof_quaternion e = Err ValueError /\
    forall l l', same_but_thrust l l' -> exists e1 e2,
      run w0 e (sd_acts l) = Ok e1 /\ run w0 e (sd_acts l') = Ok e2 /\
      e_state e1 = e_state e2 /\ sixdof_quaternion e1 = Err ValueError.
  Proof.
    assert (Hok : sd_ok 12 SD_INERTIA (573/10000) (573/10000) (573/10000)) by (repeat split; try reflexivity; lra).
    refine (sixdof_zero_attitude w0 12 SD_INERTIA _ _ _ (NAnum (PyFloat SD_ANG_ACC_LIMIT)) (NAnum (PyFloat SD_ANG_VEL_LIMIT))
      (17453/1000000 * 1, 17453/1000000 * 1, 17453/1000000 * 1) (34907/1000000 * 1, 34907/1000000 * 1, 34907/1000000 * 1)
      (41/1000000) (1813/10) (576/1) (1/1) (1027/1000000) 0%Z (0,0,0) (0,0,0) (0,0,0) Hok ltac:(lia) _ _);
    right; eexists; (split; [reflexivity|]); cbn; repeat split; apply (f_equal Fin); field.
  Qed.

  Lemma spin_id f : spin ((0, 0, 0), 1) f = f.
  Proof. destruct f as [[? ?] ?]. unquat. repeat apply (f_equal2 pair); ring. Qed.
  Lemma sixdof_identity m I i0 i1 i2 lim n body samples method d : sd_ok m I i0 i1 i2 ->
    sixdof_dyn (Fin m) I (fin3 lim) (Fin n) body samples method = Ok d ->
    forall t p v w f M, exists r, 
      compute_state_dot d t (A1 (map Fin (sd_state p ((0, 0, 0), 1) v w))) (A1 (map Fin (sd_ctrl f M))) =
      Ok (A1 (map Fin (sd_state v (qscale (1/2) (w, 0)) (add3 (sd_cw n p v) (scale3 (/ m) f)) r))).
  Proof.
    intros Ok E t p v w f M. eexists. rewrite (sixdof_csd_exact _ _ _ _ _ _ _ _ _ _ _ Ok E).
    assert (Q : qmul ((0, 0, 0), 1) (w, 0) = (w, 0)).
    { destruct w as [[? ?] ?]. unquat. repeat apply (f_equal2 pair); ring. }
    rewrite Q. unfold sd_thrust. destruct body; rewrite ?spin_id; reflexivity.
  Qed.

  (** *** Rigid body *)
  Lemma stop3_inside lim w r : strictly_within lim w -> stop3 lim w r = r.
  Proof.
    destruct lim as [[? ?] ?], w as [[? ?] ?], r as [[? ?] ?]. cbn. intros (A & B & C). unfold stopR.
    repeat match goal with |- context [Rle_dec ?a ?b] => destruct (Rle_dec a b); [lra|] end. reflexivity.
  Qed.
  Lemma gyro_euler i0 i1 i2 w M : i0 <> 0 -> i1 <> 0 -> i2 <> 0 ->
    let r := add3 (sd_gyro i0 i1 i2 w) (div3 M i0 i1 i2) in
    add3 (inertia_mul i0 i1 i2 r) (cross w (inertia_mul i0 i1 i2 w)) = M.
  Proof. intros. destruct w as [[? ?] ?], M as [[? ?] ?]. cbn. repeat apply (f_equal2 pair); field; auto. Qed.
  Lemma gyro_invariants i0 i1 i2 w : i0 <> 0 -> i1 <> 0 -> i2 <> 0 ->
    let r := add3 (sd_gyro i0 i1 i2 w) (div3 (0, 0, 0) i0 i1 i2) in
    dot3 (inertia_mul i0 i1 i2 w) r = 0 /\ dot3 (inertia_mul i0 i1 i2 w) (inertia_mul i0 i1 i2 r) = 0.
  Proof. intros. destruct w as [[? ?] ?]. cbn. split; field; auto. Qed.

  Lemma sixdof_rigid m I i0 i1 i2 lim n body samples method d : sd_ok m I i0 i1 i2 ->
    sixdof_dyn (Fin m) I (fin3 lim) (Fin n) body samples method = Ok d ->
    forall t p q v w f M, strictly_within lim w ->
    exists dp dq dv r,
      compute_state_dot d t (A1 (map Fin (sd_state p q v w))) (A1 (map Fin (sd_ctrl f M))) =
        Ok (A1 (map Fin (sd_state dp dq dv r))) /\
      add3 (inertia_mul i0 i1 i2 r) (cross w (inertia_mul i0 i1 i2 w)) = M /\
      (M = (0, 0, 0) ->
        dot3 (inertia_mul i0 i1 i2 w) r = 0 /\ dot3 (inertia_mul i0 i1 i2 w) (inertia_mul i0 i1 i2 r) = 0).
  Proof.
    intros Ok E t p q v w f M W. do 4 eexists. split.
    - rewrite (sixdof_csd_exact _ _ _ _ _ _ _ _ _ _ _ Ok E). rewrite (stop3_inside _ _ _ W). reflexivity.
    - destruct Ok as (_ & H0 & H1 & H2 & _). split; [apply gyro_euler; auto|]. intros ->. apply gyro_invariants; auto.
  Qed.

  Lemma sixdof_rigid_exact m I i0 i1 i2 lim n body samples method d f sol : sd_ok m I i0 i1 i2 ->
    sixdof_dyn (Fin m) I (fin3 lim) (Fin n) body samples method = Ok d ->
    length (sol 0) = 13%nat -> solves d (A1 (map Fin (sd_ctrl f (0, 0, 0)))) sol ->
    (forall t, strictly_within lim (sd_rate (sol t))) ->
    forall t, let W t := sd_rate (sol t) in
      dot3 (W t) (inertia_mul i0 i1 i2 (W t)) = dot3 (W 0) (inertia_mul i0 i1 i2 (W 0)) /\
      dot3 (inertia_mul i0 i1 i2 (W t)) (inertia_mul i0 i1 i2 (W t)) =
      dot3 (inertia_mul i0 i1 i2 (W 0)) (inertia_mul i0 i1 i2 (W 0)).
  Proof.
    intros Ok E L S In. set (g := fun i t => nth i (sol t) 0).
    assert (D : forall t,
      is_derive (g 10%nat) t ((i1 - i2) * g 11%nat t * g 12%nat t / i0) /\
      is_derive (g 11%nat) t ((i2 - i0) * g 10%nat t * g 12%nat t / i1) /\
      is_derive (g 12%nat) t ((i0 - i1) * g 10%nat t * g 11%nat t / i2)).
    { intros t. destruct (S t) as (ds & L1 & L2 & C & D). rewrite L in *. specialize (In t).
      destruct (sd_split (sol t) L1) as (p & q & v & w & Eq). rewrite Eq in C.
      rewrite (sixdof_csd_exact _ _ _ _ _ _ _ _ _ _ _ Ok E) in C.
      apply Ok_Fin_inj in C. subst ds. rewrite Eq in In. rewrite (proj1 (proj2 (sd_nth p q v w))) in In.
      pose proof (D 10%nat ltac:(lia)) as D10. pose proof (D 11%nat ltac:(lia)) as D11.
      pose proof (D 12%nat ltac:(lia)) as D12. clear D.
      destruct (sd_nths v (qscale (1 / 2) (qmul q (w, 0))) (add3 (sd_cw n p v) (scale3 (/ m) (sd_thrust body q f)))
        (stop3 lim w (add3 (sd_gyro i0 i1 i2 w) (div3 (0, 0, 0) i0 i1 i2)))) as (_ & _ & _ & _ & N0 & N1 & N2).
      rewrite N0 in D10. rewrite N1 in D11. rewrite N2 in D12. rewrite (stop3_inside _ _ _ In) in *.
      unfold g. rewrite Eq. destruct Ok as (_ & H0 & H1 & H2 & _). clear - D10 D11 D12 H0 H1 H2.
      destruct p as [[x y] z], q as [[[q1 q2] q3] q4], v as [[vx vy] vz], w as [[wx wy] wz].
      cbn [sd_state nth].
      refine (conj _ (conj _ _)).
      - evar_last; [exact D10|cbn; field; auto].
      - evar_last; [exact D11|cbn; field; auto].
      - evar_last; [exact D12|cbn; field; auto]. }
    destruct Ok as (_ & H0 & H1 & H2 & _).
    intros t W. unfold W, sd_rate. fold (g 10%nat t) (g 11%nat t) (g 12%nat t) (g 10%nat 0) (g 11%nat 0) (g 12%nat 0).
    clearbody g. cbn [dot3 inertia_mul]. split.
    - apply (const_of_derive (fun t => g 10%nat t * (i0 * g 10%nat t) + g 11%nat t * (i1 * g 11%nat t) + g 12%nat t * (i2 * g 12%nat t))).
      intros u. destruct (D u) as (D1 & D2 & D3).
      auto_derive; [repeat split; eexists; eassumption|]. rwD D1. rwD D2. rwD D3. field. auto.
    - apply (const_of_derive (fun t => i0 * g 10%nat t * (i0 * g 10%nat t) + i1 * g 11%nat t * (i1 * g 11%nat t) + i2 * g 12%nat t * (i2 * g 12%nat t))).
      intros u. destruct (D u) as (D1 & D2 & D3).
      auto_derive; [repeat split; eexists; eassumption|]. rwD D1. rwD D2. rwD D3. field. auto.
  Qed.

  (** *** Agreement between the models *)
  Lemma sixdof_vs_rot2d (w0 : world xr) m I i0 i1 i2 l0 l1 vel acc n samples samples' method method' jax d6 d2 :
    sd_ok m I i0 i1 i2 -> 0 <= acc ->
    sixdof_dyn (Fin m) I (fin3 (l0, l1, vel)) (Fin n) true samples method = Ok d6 ->
    rot2d_dyn w0 (Fin m) (Fin i2) (Fin acc) (Fin vel) (Fin n) samples' method' jax = Ok d2 ->
    forall t x y th vx vy wz fx fy M, - vel <= wz <= vel -> - acc <= M / i2 <= acc ->
    exists dx dy dth ax ay az,
      compute_state_dot d2 t (A1 (map Fin [x; y; th; vx; vy; wz])) (A1 (map Fin [fx; fy; M])) =
        Ok (A1 (map Fin [dx; dy; dth; ax; ay; az])) /\
      compute_state_dot d6 t (A1 (map Fin (sd_state (x, y, 0) (qz th) (vx, vy, 0) (0, 0, wz))))
          (A1 (map Fin (sd_ctrl (fx, fy, 0) (0, 0, M)))) =
        Ok (A1 (map Fin (sd_state (dx, dy, 0) (qscale dth ((0, 0, cos (th / 2) / 2), - sin (th / 2) / 2))
                           (ax, ay, 0) (0, 0, az)))).
  Proof.
    intros Ok Ha E6 E2 t x y th vx vy wz fx fy M Hw HM.
    assert (Hm : m <> 0) by apply Ok. assert (H0 : i0 <> 0) by apply Ok. assert (H1 : i1 <> 0) by apply Ok. assert (H2 : i2 <> 0) by apply Ok.
    do 6 eexists. split.
    - etransitivity; [exact (rot2d_csd (fun x => x) w0 m i2 acc vel n _ _ _ d2 Hm H2 E2 t x y th vx vy wz fx fy M)|].
      cbn [rot2d_rate]. rewrite !clipR_id by lra. reflexivity.
    - rewrite (sixdof_csd_exact _ _ _ _ _ _ _ _ _ _ _ Ok E6).
      assert (St : forall lo hi x r, r = 0 -> stopR lo hi x r = 0).
      { intros. subst. unfold stopR. rewrite Rmin_left, Rmax_left by lra. destruct (Rle_dec _ _); [|destruct (Rle_dec _ _)]; reflexivity. }
      pose proof (sin_2a (th / 2)) as S2. pose proof (cos_2a (th / 2)) as C2. replace (2 * (th / 2)) with th in S2, C2 by field.
      pose proof (sin2_cos2 (th / 2)) as SC. unfold Rsqr in SC.
      unfold sd_thrust. cbv [qz sd_cw sd_gyro stop3 div3]. unquat. cbv [sd_state].
      rewrite !St by (field; auto). rewrite S2, C2. 
      set (s := sin (th / 2)) in *. set (c := cos (th / 2)) in *. clearbody s c.
      assert (Eq : s * s = 1 - c * c) by lra.
      cbn [map]. fin_list; try (field; auto); try ring.
      all: first [reflexivity | f_equal; field; auto | idtac].
      all: try (f_equal; f_equal; field; auto).
  Qed.

  Lemma sixdof_vs_cwh m I i0 i1 i2 lim n samples samples' method method' d6 d1 : sd_ok m I i0 i1 i2 ->
    sixdof_dyn (Fin m) I (fin3 lim) (Fin n) false samples method = Ok d6 ->
    cwh_dyn (Fin m) (Fin n) samples' method' = Ok d1 ->
    forall t x y z q vx vy vz w fx fy fz M, exists dx dy dz ax ay az dq r,
      compute_state_dot d1 t (A1 (map Fin [x; y; z; vx; vy; vz])) (A1 (map Fin [fx; fy; fz])) =
        Ok (A1 (map Fin [dx; dy; dz; ax; ay; az])) /\
      compute_state_dot d6 t (A1 (map Fin (sd_state (x, y, z) q (vx, vy, vz) w))) (A1 (map Fin (sd_ctrl (fx, fy, fz) M))) =
        Ok (A1 (map Fin (sd_state (dx, dy, dz) dq (ax, ay, az) r))).
  Proof.
    intros Ok E6 E1 t x y z q vx vy vz w fx fy fz M.
    do 8 eexists. split.
    - exact (cwh_csd Fin m n _ _ d1 (proj1 Ok) E1 t x y z vx vy vz fx fy fz).
    - rewrite (sixdof_csd_exact _ _ _ _ _ _ _ _ _ _ _ Ok E6). do 3 f_equal.
      unfold sd_thrust. cbn [sd_cw scale3 add3]. f_equal. repeat apply (f_equal2 pair); field; apply Ok.
  Qed.
  Lemma rot2d_vs_cwh (w0 : world xr) m inertia acc vel n samples samples' method method' jax d2 d1 :
    m <> 0 -> inertia <> 0 ->
    rot2d_dyn w0 (Fin m) (Fin inertia) (Fin acc) (Fin vel) (Fin n) samples method jax = Ok d2 ->
    cwh_dyn (Fin m) (Fin n) samples' method' = Ok d1 ->
    forall t x y vx vy wz fx fy M, exists dx dy ax ay dth az,
      compute_state_dot d1 t (A1 (map Fin [x; y; 0; vx; vy; 0])) (A1 (map Fin [fx; fy; 0])) =
        Ok (A1 (map Fin [dx; dy; 0; ax; ay; 0])) /\
      compute_state_dot d2 t (A1 (map Fin [x; y; 0; vx; vy; wz])) (A1 (map Fin [fx; fy; M])) =
        Ok (A1 (map Fin [dx; dy; dth; ax; ay; az])).
  Proof.
    intros Hm Hi E2 E1 t x y vx vy wz fx fy M. do 6 eexists. split.
    - etransitivity; [exact (cwh_csd Fin m n _ _ d1 Hm E1 t x y 0 vx vy 0 fx fy 0)|].
      cbn [map]. fin_list; try reflexivity. field; auto.
    - etransitivity; [exact (rot2d_csd (fun x => x) w0 m inertia acc vel n _ _ _ d2 Hm Hi E2 t x y 0 vx vy wz fx fy M)|].
      cbn [rot2d_rate map]. rewrite cos_0, sin_0. fin_list; try reflexivity; field; auto.
  Qed.

  (** *** Angular acceleration limit *)
  Lemma sixdof_dyn_ok m I lim n body samples method : m <> 0 -> exists d, sixdof_dyn (Fin m) I (fin3 lim) (Fin n) body samples method = Ok d.
  Proof.
    intros Hm. destruct lim as [[? ?] ?]. unfold fin3, sixdof_dyn, generate_cwh_matrices, pydiv. cbn.
    rewrite (Req_bool_false m (0/1)) by lra. cbn. eexists. reflexivity.
  Qed.
  Lemma sixdof_acc_refuted (w0 : world xr) : exists e lim,
    sixdof_build 1 (diag 1 3 1) (NAnum (PyFloat (Fin (1/10)))) (NAnum (PyInt 1)) 10 10 10 1 true 0 0 "Euler"
      (0, 0, 0) ((0, 0, 0), 1) (0, 0, 0) (0, 1/2, 1/2) = Ok e /\
    lim = Rmin (1/10) (10 * 10 / 1) /\
    let o := entity_step w0 e (Fin 1) (AArr (A1 (map Fin [0; 0; 0; 0; 0; 0]))) in
    o_res o = Ok tt /\ bnth (e_sdot (o_entity o)) 10 = Some (Fin (1/2)) /\ lim < 1/2.
  Proof.
    assert (La : limit_arg (NAnum (PyFloat (Fin (1/10)))) (1/10, 1/10, 1/10)).
    { right. eexists. split; [reflexivity|]. cbn. repeat split; apply (f_equal Fin); field. }
    assert (Lv : limit_arg (NAnum (PyInt 1)) (1, 1, 1)).
    { right. eexists. split; [reflexivity|]. cbn. repeat split; apply (f_equal Fin); field. }
    destruct (sixdof_craft_ok 1 (diag 1 3 1) _ _ _ _ 10 10 10 1 true 0 0%Z "Euler" (0, 0, 0) ((0, 0, 0), 1) (0, 0, 0) (0, 1/2, 1/2) ltac:(lra) La Lv) as [e E].
    exists e, (Rmin (1/10) (10 * 10 / 1)). split; [exact E|]. split; [reflexivity|].
    assert (Ok : sd_ok 1 (diag 1 3 1) 1 3 1) by (repeat split; lra).
    destruct (sixdof_limits _ _ _ _ _ _ _ _ _ _ _ _ _ _ _ _ _ _ _ _ _ _ Ok La Lv E) as (D & Cx & Cm & Es).
    pose proof (sixdof_step w0 _ _ _ _ _ _ _ _ _ e Ok (Z.le_refl 0) D _ _ _ _ Cm Cx _ _ _ _ (0,0,0) (0,0,0) 1 Es) as S.
    cbv zeta in S. destruct S as (S1 & S2 & _). split; [exact S1|]. split.
    - cbn [sd_ctrl] in S2. rewrite S2. clear.
      set (c := clipc _ (inertia_mul _ _ _ _) _). 
      assert (Hc : fst (fst c) = 0).
      { unfold c, clipc, neg3. cbn [inertia_mul wheel_limit scale3 fst]. unfold clipR. rewrite !(Rmin_left (1/10)) by lra. rewrite Rmax_left by lra. rewrite Rmin_left by lra. reflexivity. }
      clearbody c. destruct c as [[c0 c1] c2]. cbn in Hc. subst c0. cbn [add3 sd_gyro div3 stop3 wheel_limit sd_state map bnth nth_error]. unfold stopR.
      rewrite (Rmin_left 1) by lra.
      destruct (Rle_dec 1 0); [lra|]. destruct (Rle_dec 0 (-(1))); [lra|]. apply (f_equal (fun r => Some (Fin r))). field.
    - rewrite Rmin_left by lra. lra.
  Qed.

  Lemma acc_axis i hi l w0 x lo : 0 < i -> 0 <= hi -> lo = - (i * hi) ->
    - hi <= stopR (- l) l w0 (0 + clipR lo (i * hi) x / i) <= hi.
  Proof.
    intros Hi Hh ->. apply stopR_between; [lra|]. rewrite Rplus_0_l.
    assert (K : - (i * hi) <= clipR (- (i * hi)) (i * hi) x <= i * hi) by (apply clipR_between; nra).
    split; apply Rmult_le_reg_r with i; auto; unfold Rdiv; rewrite Rmult_assoc, Rinv_l; lra.
  Qed.
  Lemma sixdof_acc_symmetric (w0 : world xr) m I i A V al vl iw aw vw thr body n samples p0 q0 v0 w0' e : 
    sd_ok m I i i i -> 0 < i -> (samples <= 0)%Z -> 0 <= iw -> 0 <= aw -> within al (0, 0, 0) ->
    limit_arg A al -> limit_arg V vl ->
    sixdof_build m I A V iw aw vw thr body n samples "Euler" p0 q0 v0 w0' = Ok e ->
    forall l, exists e', run w0 e (sd_acts l) = Ok e' /\
    forall h f M,
      let o := entity_step w0 e' (Fin h) (AArr (A1 (map Fin (sd_ctrl f M)))) in
      o_res o = Ok tt /\
      exists p' q' v' r, e_sdot (o_entity o) = A1 (map Fin (sd_state p' q' v' r)) /\
        within (wheel_limit al iw aw i i i) r.
  Proof.
    intros Ok Hi Sa Iw Aw Al La Lv E l.
    destruct (sixdof_craft_run w0 _ _ _ _ _ _ _ _ _ _ _ _ _ _ _ _ _ _ _ _ _ l Ok Sa La Lv E) as (e' & p & q & v & w & R1 & Es & _).
    exists e'. split; [exact R1|]. intros h f M.
    destruct (sixdof_limits _ _ _ _ _ _ _ _ _ _ _ _ _ _ _ _ _ _ _ _ _ _ Ok La Lv E) as (D & Cx & Cm & _).
    destruct (run_config w0 _ _ _ R1) as (D1 & _ & D2 & D3 & _).
    rewrite <- D1 in D. rewrite <- D2 in Cm. rewrite <- D3 in Cx.
    destruct (sixdof_step w0 _ _ _ _ _ _ _ _ _ e' Ok Sa D _ _ _ _ Cm Cx p q v w f M h Es) as (S1 & S2 & _).
    split; [exact S1|]. do 4 eexists. split; [exact S2|].
    assert (Q : 0 <= iw * aw / i).
    { apply Rmult_le_pos; [apply Rmult_le_pos; auto|]. left. apply Rinv_0_lt_compat, Hi. }
    destruct al as [[a0 a1] a2]. cbn in Al.
    assert (A0 : 0 <= Rmin a0 (iw * aw / i)) by (apply Rmin_glb; lra).
    assert (A1 : 0 <= Rmin a1 (iw * aw / i)) by (apply Rmin_glb; lra).
    assert (A2 : 0 <= Rmin a2 (iw * aw / i)) by (apply Rmin_glb; lra).
    assert (G : sd_gyro i i i w = (0, 0, 0)).
    { destruct w as [[? ?] ?]. cbn. repeat apply (f_equal2 pair); field; lra. }
    rewrite G. destruct M as [[M0 M1] M2], w as [[b0 b1] b2], vl as [[l0 l1] l2].
    cbv [wheel_limit stop3 add3 div3 clipc neg3 scale3 inertia_mul within].
    refine (conj _ (conj _ _)); apply acc_axis; auto; lra.
  Qed.

  Lemma sixdof_full_inertia_refuted :
    exists r0 r1 r2 d dp dq dv r,
      sixdof_dyn (Fin 1) (mat_of r0 r1 r2) (fin3 (1, 1, 1)) (Fin 0) true 0 "Euler" = Ok d /\
      compute_state_dot d (Fin 0) (A1 (map Fin (sd_state (0,0,0) ((0,0,0),1) (0,0,0) (0,0,0)))) (A1 (map Fin (sd_ctrl (0,0,0) (1,0,0)))) =
        Ok (A1 (map Fin (sd_state dp dq dv r))) /\
      add3 (mat_mul r0 r1 r2 r) (cross (0,0,0) (mat_mul r0 r1 r2 (0,0,0))) <> (1, 0, 0).
  Proof.
    exists (2, 1, 0), (1, 2, 0), (0, 0, 1).
    destruct (sixdof_dyn_ok 1 (mat_of (2, 1, 0) (1, 2, 0) (0, 0, 1)) (1,1,1) 0 true 0 "Euler" ltac:(lra)) as [d E].
    exists d. do 4 eexists. split; [exact E|]. split.
    - assert (Hok : sd_ok 1 (mat_of (2, 1, 0) (1, 2, 0) (0, 0, 1)) 2 2 1) by (repeat split; lra).
      rewrite (sixdof_csd_exact _ _ _ _ _ _ _ _ _ _ _ Hok E). rewrite stop3_inside by (cbv [strictly_within]; lra). reflexivity.
    - cbv [add3 mat_mul cross dot3 sd_gyro div3]. intros H. injection H as _ H _. lra.
  Qed.

  (** *** Examples *)
  Lemma sixdof_norm_example (w0 : world xr) :
    exists e e', sixdof_build 2 (diag 1 1 1) (NAnum (PyInt 1)) (NAnum (PyInt 1)) 10 10 10 1 true 1 0 "Euler"
      (0, 0, 0) ((0, 0, 0), 1) (0, 0, 0) (0, 0, 1) = Ok e /\
    run w0 e (sd_acts [(1, (0, 0, 0), (0, 0, 0)); (1, (1, 0, 0), (0, 0, 0))]) = Ok e' /\
    exists p q v w, e_state e' = A1 (map Fin (sd_state p q v w)) /\ qnorm2 q = 25 / 16.
  Proof.
    assert (La : limit_arg (NAnum (PyInt 1)) (1, 1, 1)).
    { right. eexists. split; [reflexivity|]. cbn. repeat split; apply (f_equal Fin); field. }
    destruct (sixdof_craft_ok 2 (diag 1 1 1) _ _ _ _ 10 10 10 1 true 1 0%Z "Euler" (0, 0, 0) ((0, 0, 0), 1) (0, 0, 0) (0, 0, 1) ltac:(lra) La La) as [e E].
    assert (Hok : sd_ok 2 (diag 1 1 1) 1 1 1) by (repeat split; lra).
    destruct (sixdof_craft_run w0 _ _ _ _ _ _ _ _ _ _ _ _ _ _ _ _ _ _ _ _ _ [(1, (0, 0, 0), (0, 0, 0)); (1, (1, 0, 0), (0, 0, 0))] Hok (Z.le_refl 0) La La E)
      as (e' & p' & q' & v' & w' & R1 & R2 & _ & _ & R5).
    exists e, e'. split; [exact E|]. split; [exact R1|]. exists p', q', v', w'. split; [exact R2|].
    destruct R5 as [_ R5]; auto; try lra.
    - cbv [wheel_limit within]. rewrite !Rmin_left by lra. lra.
    - cbv [within]. lra.
    - intros h f M [K|[K|[]]]; injection K as <- <- <-; reflexivity.
    - rewrite R5. cbv [growth steps_of map fold_right]. unquat. field.
  Qed.
  Lemma apply_quat_example :
    apply_quat (fin3 (1, 0, 0)) (fin4 ((0, 0, 1), 1)) = fin3 (0, 2, 0) /\
    rotate (qz (PI / 2)) (1, 0, 0) = (0, 1, 0) /\ qnorm2 (qz (PI / 2)) = 1.
  Proof.
    split; [|split].
    - rewrite apply_quat_spin. unquat. cbn. repeat apply (f_equal2 pair); apply (f_equal Fin); ring.
    - unquat. replace (PI / 2 / 2) with (PI / 4) by field.
      pose proof (sin2_cos2 (PI / 4)) as S. rewrite sin_cos_PI4 in *. unfold Rsqr in S.
      repeat apply (f_equal2 pair); lra.
    - unquat. pose proof (sin2_cos2 (PI / 2 / 2)) as S. unfold Rsqr in S. lra.
  Qed.
  Lemma sixdof_rigid_example :
    exists d, sixdof_dyn (Fin 1) (diag 1 2 3) (fin3 (9, 9, 9)) (Fin 0) true 0 "Euler" = Ok d /\
      compute_state_dot d (Fin 0) (A1 (map Fin (sd_state (0,0,0) ((0,0,0),1) (0,0,0) (1,1,1)))) (A1 (map Fin (sd_ctrl (0,0,0) (0,0,0)))) =
      Ok (A1 (map Fin (sd_state (0,0,0) ((1/2,1/2,1/2),0) (0,0,0) (-1, 1, -1/3)))).
  Proof.
    destruct (sixdof_dyn_ok 1 (diag 1 2 3) (9,9,9) 0 true 0 "Euler" ltac:(lra)) as [d E]. exists d. split; [exact E|].
    assert (Hok : sd_ok 1 (diag 1 2 3) 1 2 3) by (repeat split; lra).
    rewrite (sixdof_csd_exact _ _ _ _ _ _ _ _ _ _ _ Hok E). rewrite stop3_inside by (cbv [strictly_within]; lra).
    unfold sd_thrust. cbv [sd_cw sd_gyro div3]. unquat. cbv [sd_state]. cbn [map]. fin_list; field.
  Qed.
  Lemma agreement_example (w0 : world xr) : exists d6 d2 d1,
    sd_ok 12 (diag 1 2 3) 1 2 3 /\
    sixdof_dyn (Fin 12) (diag 1 2 3) (fin3 (1, 1, 1)) (Fin (1/1000)) true 0 "RK45" = Ok d6 /\
    rot2d_dyn w0 (Fin 12) (Fin 3) (Fin 1) (Fin 1) (Fin (1/1000)) 0 "RK45" false = Ok d2 /\
    cwh_dyn (Fin 12) (Fin (1/1000)) 0 "RK45" = Ok d1.
  Proof.
    destruct (sixdof_dyn_ok 12 (diag 1 2 3) (1,1,1) (1/1000) true 0 "RK45" ltac:(lra)) as [d E]. exists d.
    do 2 eexists. split; [repeat split; lra|]. split; [exact E|]. split.
    - unfold rot2d_dyn, generate_cwh_matrices, pydiv. cbn. rewrite (Req_bool_false 12 (0/1)) by lra. reflexivity.
    - unfold cwh_dyn, generate_cwh_matrices, pydiv. cbn. rewrite (Req_bool_false 12 (0/1)) by lra. reflexivity.
  Qed.
  Lemma default_limits_example : let i := 573/10000 in let iw := 41/1000000 in
    wheel_limit (34907/1000000, 34907/1000000, 34907/1000000) iw 576 i i i = (34907/1000000, 34907/1000000, 34907/1000000) /\
    wheel_limit (17453/1000000, 17453/1000000, 17453/1000000) iw (1813/10) i i i = (17453/1000000, 17453/1000000, 17453/1000000) /\
    wheel_limit (1, 1, 1) iw 576 i i i = (iw * 576 / i, iw * 576 / i, iw * 576 / i).
  Proof.
    cbv zeta. split; [|split]; cbv [wheel_limit].
    - rewrite Rmin_left by lra. reflexivity.
    - rewrite Rmin_left by lra. reflexivity.
    - rewrite Rmin_right by lra. reflexivity.
  Qed.
  Lemma sixdof_orthogonal m I i0 i1 i2 lim n body samples method d : sd_ok m I i0 i1 i2 ->
    sixdof_dyn (Fin m) I (fin3 lim) (Fin n) body samples method = Ok d ->
    forall t p q v w f M, exists dp dq dv dw,
      compute_state_dot d t (A1 (map Fin (sd_state p q v w))) (A1 (map Fin (sd_ctrl f M))) =
        Ok (A1 (map Fin (sd_state dp dq dv dw))) /\
      dq = qscale (1/2) (qmul q (w, 0)) /\ dot3 (fst q) (fst dq) + snd q * snd dq = 0.
  Proof.
    intros Ok E t p q v w f M. do 4 eexists. split; [apply (sixdof_csd_exact _ _ _ _ _ _ _ _ _ _ _ Ok E)|].
    split; [reflexivity|apply quat_orth].
  Qed.
  Lemma sixdof_euler_norm (w0 : world xr) m I i0 i1 i2 A V al vl iw aw vw thr body n samples p0 q0 v0 w0' e :
    sd_ok m I i0 i1 i2 -> (samples <= 0)%Z -> limit_arg A al -> limit_arg V vl ->
    sixdof_build m I A V iw aw vw thr body n samples "Euler" p0 q0 v0 w0' = Ok e ->
    forall l, exists e' p q v w, run w0 e (sd_acts l) = Ok e' /\ e_state e' = A1 (map Fin (sd_state p q v w)) /\
    forall h f M, exists p' q' v' w',
      let o := entity_step w0 e' (Fin h) (AArr (A1 (map Fin (sd_ctrl f M)))) in
      o_res o = Ok tt /\ e_state (o_entity o) = A1 (map Fin (sd_state p' q' v' w')) /\
      qnorm2 q' = qnorm2 q * (1 + h^2 * dot3 w w / 4).
  Proof.
    intros Ok Sa La Lv E l.
    destruct (sixdof_craft_run w0 _ _ _ _ _ _ _ _ _ _ _ _ _ _ _ _ _ _ _ _ _ l Ok Sa La Lv E) as (e' & p & q & v & w & R1 & Es & _).
    exists e', p, q, v, w. split; [exact R1|]. split; [exact Es|]. intros h f M.
    destruct (sixdof_limits _ _ _ _ _ _ _ _ _ _ _ _ _ _ _ _ _ _ _ _ _ _ Ok La Lv E) as (D & Cx & Cm & _).
    destruct (run_config w0 _ _ _ R1) as (D1 & _ & D2 & D3 & _).
    rewrite <- D1 in D. rewrite <- D2 in Cm. rewrite <- D3 in Cx.
    destruct (sixdof_step w0 _ _ _ _ _ _ _ _ _ e' Ok Sa D _ _ _ _ Cm Cx p q v w f M h Es) as (S1 & _ & S2).
    do 4 eexists. split; [exact S1|]. split; [exact S2|]. apply quat_growth.
  Qed.
End I.

Section B.
  Context {T : Type} {N : Num T} {O : NumOrd T} {P : NumNeg T}.

  (** Rates stay within both the configured and the wheel limit. *)
  Lemma sixdof_rate_bounds (w : world T) m I al vl v0 v1 v2 iw aw vw thr body n samples method
      x y z q1 q2 q3 q4 vx vy vz wx wy wz e acts e' :
    axis_limits vl v0 v1 v2 ->
    sixdof_spacecraft m I al vl iw aw vw thr body n samples method x y z q1 q2 q3 q4 vx vy vz wx wy wz = Ok e ->
    acts <> [] -> run w e acts = Ok e' ->
    forall k lim il, In (k, lim, il) [(10, v0, m00 I); (11, v1, m11 I); (12, v2, m22 I)]%nat ->
      (forall a b, In (a, b) [(v0, m00 I); (v1, m11 I); (v2, m22 I)] -> nleb n0 a = true /\ nleb n0 (ndiv (nmul iw vw) b) = true) ->
      forall r, bnth (e_state e') k = Some r -> nisnan r = true \/
        (let q := ndiv (nmul iw vw) il in
         nleb (nneg lim) r = true /\ nleb r lim = true /\ nleb (nneg q) r = true /\ nleb r q = true).
  Proof.
    intros Vl E Ne H k lim il K Pos r Hr.
    destruct (sixdof_craft_inv _ _ _ _ _ _ _ _ _ _ _ _ _ _ _ _ _ _ _ _ _ _ _ _ _ _ E) as
      (b0 & b1 & b2 & c0 & c1 & c2 & da & dv & P1 & P2 & P3 & P4 & D & _).
    assert (c0 = v0 /\ c1 = v1 /\ c2 = v2) as (-> & -> & ->).
    { destruct Vl as [->|(p & -> & -> & -> & ->)]; cbn in P3; injection P3 as <-; cbn in P4; injection P4 as <- <- <-; auto. }
    destruct (sixdof_dyn_inv _ _ _ _ _ _ _ _ _ _ D) as (D1 & D2 & _ & _ & D5 & _).
    destruct (Pos v0 (m00 I) ltac:(cbn; auto)) as [V0 W0].
    destruct (Pos v1 (m11 I) ltac:(cbn; auto)) as [V1 W1].
    destruct (Pos v2 (m22 I) ltac:(cbn; auto)) as [V2 W2].
    assert (L : limits_ok (d_min (e_dyn e)) (d_max (e_dyn e))).
    { rewrite D1, D2. intros i l u Hl Hu.
      do 13 (destruct i as [|i]; [injection Hl as <-; injection Hu as <-;
        first [apply ninf_le_pinf | eapply leb_trans; [apply neg_le_0|]; apply py_min_0; assumption]|]).
      destruct i; discriminate. }
    assert (Z : forall lo hi, bnth (d_min (e_dyn e)) k = Some lo -> bnth (d_max (e_dyn e)) k = Some hi ->
      nisnan r = true \/ (nleb lo r = true /\ nleb r hi = true)).
    { intros lo hi Hl Hu. destruct (run_limits w e acts e' Ne H L k r _ _ Hr Hl Hu) as [Q|Q]; [|left; exact Q|right; exact Q].
      intros (c & cc & Hc & Hcc & Nn). rewrite D5 in Hc. discriminate. }
    rewrite D1, D2 in Z.
    destruct K as [K|[K|[K|[]]]]; injection K as <- <- <-;
      destruct (Z _ _ eq_refl eq_refl) as [Q|Q]; auto; right; apply min_bound; assumption.
  Qed.
End B.

Lemma sixdof_diagonal {T} {N : Num T} (m n : T) (I J : mat3 T) vel body samples method d d' :
  m00 I = m00 J -> m11 I = m11 J -> m22 I = m22 J ->
  sixdof_dyn m I vel n body samples method = Ok d -> sixdof_dyn m J vel n body samples method = Ok d' ->
  forall t s u, compute_state_dot d t s u = compute_state_dot d' t s u.
Proof.
  intros H0 H1 H2 E E' t s u. assert (d = d') as <-; [|reflexivity].
  unfold sixdof_dyn, sixdof_f, sixdof_g in E, E'. rewrite H0, H1, H2 in E. congruence.
Qed.
