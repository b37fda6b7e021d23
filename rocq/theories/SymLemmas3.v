(** Symmetries of the vehicles, continued, and of their runs. *)
From Coq Require Import String List Bool Arith ZArith Lia Reals Lra.
From Flocq Require Import Core.Core.
From Verif Require Import PyBase Num Arr BaseModel Cwh Rot2d Utils SixDof Dubins Integ Spec SpecBase SpecWrap XReal NumOrdLemmas ArrLemmas
  BaseLemmas BaseLemmas2 BaseLemmas3 BaseLemmas4 WrapLemmas XTac SpecRk SpecCwh RkLemmas CwhLemmas LimLemmas
  SpecSixDof SpecDubins DubinsLemmas Rot2dLemmas SixDofLemmas SixDofProps SpecInteg IntegLemmas SpecSym SymLemmas SymLemmas2.
Import List ListNotations.
Local Open Scope R_scope.
Local Hint Extern 0 (Num xr) => exact (XR Fin) : typeclass_instances.

Lemma rot2d_flip_symmetry (w : world xr) m i acc vel n k me jax d : m <> 0 -> i <> 0 ->
  rot2d_dyn w (Fin m) (Fin i) (Fin acc) (Fin vel) (Fin n) k me jax = Ok d -> forall lo hi,
  symmetry d (A1 (map Fin [-1; -1; lo])) (A1 (map Fin [1; 1; hi])) (flipped [-1; -1; 1]) (flipped rot_sg) (flipped rot_sg) (flipped rot_sg).
Proof.
  intros Hm Hi E lo hi. destruct (rot2d_dyn_inv _ _ _ _ _ _ _ _ _ _ E) as (D1 & D2 & _ & _ & D5 & _).
  destruct (flip_compatible rot_sg rot_sg eq_refl eq_refl) as (C1 & C2).
  assert (Lim : forall x y th a b wz, (r <- np_clip (A1 (map Fin [x; y; th; a; b; wz])) (d_min d) (d_max d) ;; wrap_angles d r) =
    Ok (A1 (map Fin [x; y; wrapR 0 th; a; b; clipR (- vel) vel wz]))).
  { intros. rewrite D1, D2. cbn [nninf npinf XR nneg xneg]. rewrite np_clip_list by reflexivity.
    cbn [expand clip_list map length bind]. rewrite !clip_inf, clip1_Fin.
    erewrite wrap_angles_list; [|exact D5|reflexivity].
    assert (EW : [NaN; NaN; Fin 0; NaN; NaN; NaN] = [nnan; nnan; n0; nnan; nnan; nnan]) by (rewrite n0_Fin; reflexivity).
    rewrite <- EW. cbn [wrap_list nisnan XR xisnan]. rewrite wrap1_Fin. reflexivity. }
  constructor.
  - intros t s s' u u' (Ls & ->) (Lu & ->).
    destruct u as [|u0 [|u1 [|u2 []]]]; try discriminate. destruct s as [|x [|y [|z [|a [|b [|c []]]]]]]; try discriminate.
    unfold rot_sg; cbn [flip zipw]. do 4 eexists. split; [apply clip_three|]. split; [apply clip_three|].
    split; [apply (rot2d_csd (fun x => x) w m i acc vel n k me jax d Hm Hi E)|].
    split; [apply (rot2d_csd (fun x => x) w m i acc vel n k me jax d Hm Hi E)|].
    split; [reflexivity|]. unfold rot_sg. cbn [rot2d_rate flip zipw].
    replace (1 * c) with c by ring. replace (1 * u2) with u2 by ring. replace (1 * z) with z by ring.
    change (-1) with (- (1)).
    replace (clipR (- (1)) 1 (- (1) * u0)) with (- clipR (- (1)) 1 u0) by (rewrite <- clipR_opp by lra; f_equal; ring).
    replace (clipR (- (1)) 1 (- (1) * u1)) with (- clipR (- (1)) 1 u1) by (rewrite <- clipR_opp by lra; f_equal; ring).
    repeat (apply f_equal2; [first [ring | field; exact Hm | now rewrite Rmult_1_l]|]). reflexivity.
  - intros u u' (Lu & ->). destruct u as [|u0 [|u1 [|u2 []]]]; try discriminate. split; apply oob_ok; reflexivity.
  - intros s s' q q' S1 S2. exact (C1 _ _ _ _ S1 S2).
  - exact C2.
  - intros s s' (Ls & ->). destruct s as [|x [|y [|z [|a [|b [|c []]]]]]]; try discriminate. unfold rot_sg; cbn [flip zipw].
    do 2 eexists. split; [apply Lim|]. split; [apply Lim|]. split; [reflexivity|]. unfold rot_sg; cbn [flip zipw].
    repeat (apply f_equal2; [rewrite ?Rmult_1_l; reflexivity|]). reflexivity.
Qed.

Lemma clip_opp_one b x y : 0 <= b -> x = - y -> clipR (- b) b x = - clipR (- b) b y.
Proof. intros H ->. now apply clipR_opp. Qed.
Lemma sixdof_mirror_symmetry m I i0 i1 i2 l0 l1 l2 n body k me d : sd_ok m I i0 i1 i2 -> 0 < l0 -> 0 < l1 ->
  sixdof_dyn (Fin m) I (Fin l0, Fin l1, Fin l2) (Fin n) body k me = Ok d -> forall thr c0 c1 c2, 0 <= thr -> 0 <= c0 -> 0 <= c1 ->
  symmetry d (A1 (map Fin [- thr; - thr; - thr; - c0; - c1; - c2])) (A1 (map Fin [thr; thr; thr; c0; c1; c2]))
    (flipped six_ug) (flipped six_sg) (flipped six_sg) (flipped six_sg).
Proof.
  intros (Hm & H0 & H1 & H2 & E0 & E1 & E2) P0 P1 E thr c0 c1 c2 T0 T1 T2.
  destruct (sixdof_dyn_inv _ _ _ _ _ _ _ _ _ _ E) as (D1 & D2 & _ & _ & D5 & _).
  destruct (flip_compatible six_sg six_sg eq_refl eq_refl) as (C1 & C2).
  assert (Clip : forall a b c x y z, np_clip (A1 (map Fin [a; b; c; x; y; z])) (A1 (map Fin [- thr; - thr; - thr; - c0; - c1; - c2]))
      (A1 (map Fin [thr; thr; thr; c0; c1; c2])) = Ok (A1 (map Fin (sd_ctrl (clipR (- thr) thr a, clipR (- thr) thr b, clipR (- thr) thr c)
        (clipR (- c0) c0 x, clipR (- c1) c1 y, clipR (- c2) c2 z))))).
  { intros. rewrite np_clip_list by reflexivity. cbn [expand clip_list map length sd_ctrl]. rewrite !clip1_Fin. reflexivity. }
  assert (Lim : forall x y z q1 q2 q3 q4 a b c wx wy wz,
    (r <- np_clip (A1 (map Fin [x; y; z; q1; q2; q3; q4; a; b; c; wx; wy; wz])) (d_min d) (d_max d) ;; wrap_angles d r) =
    Ok (A1 (map Fin [x; y; z; q1; q2; q3; q4; a; b; c; clipR (- l0) l0 wx; clipR (- l1) l1 wy; clipR (- l2) l2 wz]))).
  { intros. rewrite D1, D2. cbn [nninf npinf XR nneg xneg]. rewrite np_clip_list by reflexivity.
    cbn [expand clip_list map length bind]. rewrite !clip_inf, !clip1_Fin. unfold wrap_angles. rewrite D5. reflexivity. }
  constructor.
  - intros t s s' u u' (Ls & ->) (Lu & ->).
    destruct u as [|u0 [|u1 [|u2 [|u3 [|u4 [|u5 []]]]]]]; try discriminate.
    destruct s as [|x [|y [|z [|q1 [|q2 [|q3 [|q4 [|a [|b [|c [|wx [|wy [|wz []]]]]]]]]]]]]]; try discriminate.
    unfold six_sg, six_ug; cbn [flip zipw]. do 4 eexists. split; [apply Clip|]. split; [apply Clip|].
    split; [apply (sixdof_csd (fun x => x) m I i0 i1 i2 l0 l1 l2 n body k me d Hm H0 H1 H2 E0 E1 E2 E t (x, y, z) ((q1, q2, q3), q4) (a, b, c) (wx, wy, wz))|].
    split; [apply (sixdof_csd (fun x => x) m I i0 i1 i2 l0 l1 l2 n body k me d Hm H0 H1 H2 E0 E1 E2 E t (1 * x, 1 * y, -1 * z) ((-1 * q1, -1 * q2, 1 * q3), 1 * q4) (1 * a, 1 * b, -1 * c) (-1 * wx, -1 * wy, 1 * wz))|].
    rewrite (clip_opp_one thr (-1 * u2) u2), (clip_opp_one c0 (-1 * u3) u3), (clip_opp_one c1 (-1 * u4) u4) by (assumption || ring).
    rewrite !Rmult_1_l.
    set (f0 := clipR (- thr) thr u0). set (f1 := clipR (- thr) thr u1). set (f2 := clipR (- thr) thr u2).
    set (g0 := clipR (- c0) c0 u3). set (g1 := clipR (- c1) c1 u4). set (g2 := clipR (- c2) c2 u5).
    unfold sd_rates. destruct body; cbv [sd_thrust spin sd_state map3 map4 qscale qmul qconj sd_cw sd_gyro stop3 div3 add3 scale3 cross dot3 fst snd].
    + split; [reflexivity|]. unfold six_sg; cbn [flip zipw].
      replace (-1 * wx) with (- wx) by ring. replace (-1 * wy) with (- wy) by ring.
      repeat (apply f_equal2; [first [reflexivity | field; assumption
        | match goal with |- stopR _ _ _ _ = -1 * stopR _ _ _ _ => 
            replace (-1) with (-(1)) by ring; rewrite <- Ropp_mult_distr_l, Rmult_1_l, <- stopR_opp by assumption; f_equal; field; auto end
        | match goal with |- stopR _ _ _ _ = 1 * stopR _ _ _ _ => rewrite Rmult_1_l; f_equal; field; auto end] |]).
      reflexivity.
    + split; [reflexivity|]. unfold six_sg; cbn [flip zipw].
      replace (-1 * wx) with (- wx) by ring. replace (-1 * wy) with (- wy) by ring.
      repeat (apply f_equal2; [first [reflexivity | field; assumption
        | match goal with |- stopR _ _ _ _ = -1 * stopR _ _ _ _ => 
            replace (-1) with (-(1)) by ring; rewrite <- Ropp_mult_distr_l, Rmult_1_l, <- stopR_opp by assumption; f_equal; field; auto end
        | match goal with |- stopR _ _ _ _ = 1 * stopR _ _ _ _ => rewrite Rmult_1_l; f_equal; field; auto end] |]).
      reflexivity.
  - intros u u' (Lu & ->). destruct u as [|u0 [|u1 [|u2 [|u3 [|u4 [|u5 []]]]]]]; try discriminate. split; apply oob_ok; reflexivity.
  - intros s s' q q' S1 S2. exact (C1 _ _ _ _ S1 S2).
  - exact C2.
  - intros s s' (Ls & ->).
    destruct s as [|x [|y [|z [|q1 [|q2 [|q3 [|q4 [|a [|b [|c [|wx [|wy [|wz []]]]]]]]]]]]]]; try discriminate.
    unfold six_sg; cbn [flip zipw]. do 2 eexists. split; [apply Lim|]. split; [apply Lim|]. split; [reflexivity|]. unfold six_sg; cbn [flip zipw].
    rewrite (clip_opp_one l0 (-1 * wx) wx), (clip_opp_one l1 (-1 * wy) wy) by (lra || ring). rewrite !Rmult_1_l.
    repeat (apply f_equal2; [ring|]). reflexivity.
Qed.

(** ** Integrators *)
Lemma sign_clip s x : s = 1 \/ s = -1 -> clipR (-1) 1 (s * x) = s * clipR (-1) 1 x.
Proof.
  intros [-> | ->]; [now rewrite !Rmult_1_l|]. change (-1) with (- (1)).
  rewrite (clip_opp_one 1 (- (1) * x) x) by lra. ring.
Qed.
Lemma integ_flip_symmetry m c mode k sa me d sg : m <> 0 -> offered mode k -> integ_dyn (Fin m) (Fin c) mode sa me = Ok d ->
  length sg = k -> signs sg ->
  symmetry d (A0 (Fin (-1))) (A0 (Fin 1)) (flipped sg) (flipped (sg ++ sg)) (flipped (sg ++ sg)) (flipped (sg ++ sg)).
Proof.
  intros Hm Of E Lg Sg.
  destruct (integ_ok Fin m c mode k sa me Hm Of) as (d' & E' & H1 & H2 & H3 & H4 & H5 & _).
  assert (d' = d) by congruence. subst d'. clear E'.
  destruct (flip_compatible (sg ++ sg) (sg ++ sg) eq_refl eq_refl) as (C1 & C2).
  constructor.
  - intros t s s' u u' (Ls & ->) (Lu & ->).
    pose proof (fun ps vs us => integ_derivative Fin m c mode k sa me d t ps vs us Hm Of E) as Der.
    unfold point_state in Der.
    destruct Of as [[-> ->]|[[-> ->]|[-> ->]]].
    + destruct (len1 _ Lg) as (g1 & ->). unfold signs in Sg; rewrite Forall_forall in Sg.
      assert (G1 := Sg g1 ltac:(cbn; auto)). destruct u as [|u1 []]; try discriminate. destruct s as [|p1 [|v1 []]]; try discriminate.
      cbn [flip zipw app]. do 4 eexists. split; [rewrite np_clip_scalar; reflexivity|]. split; [rewrite np_clip_scalar; reflexivity|].
      cbn [map]. split; [exact (Der [p1] [v1] [clipR (-1) 1 u1] eq_refl eq_refl eq_refl)|].
      split; [exact (Der [g1 * p1] [g1 * v1] [clipR (-1) 1 (g1 * u1)] eq_refl eq_refl eq_refl)|]. split; [reflexivity|].
      cbn [flip zipw app]. unfold axis_accel. rewrite !sign_clip by assumption.
      repeat (apply f_equal2; [field; assumption|]). reflexivity.
    + destruct (len2 _ Lg) as (g1 & g2 & ->). unfold signs in Sg; rewrite Forall_forall in Sg.
      assert (G1 := Sg g1 ltac:(cbn; auto)). assert (G2 := Sg g2 ltac:(cbn; auto)).
      destruct u as [|u1 [|u2 []]]; try discriminate. destruct s as [|p1 [|p2 [|v1 [|v2 []]]]]; try discriminate.
      cbn [flip zipw app]. do 4 eexists. split; [rewrite np_clip_scalar; reflexivity|]. split; [rewrite np_clip_scalar; reflexivity|].
      cbn [map]. split; [exact (Der [p1; p2] [v1; v2] [clipR (-1) 1 u1; clipR (-1) 1 u2] eq_refl eq_refl eq_refl)|].
      split; [exact (Der [g1 * p1; g2 * p2] [g1 * v1; g2 * v2] [clipR (-1) 1 (g1 * u1); clipR (-1) 1 (g2 * u2)] eq_refl eq_refl eq_refl)|]. split; [reflexivity|].
      cbn [flip zipw app]. unfold axis_accel. rewrite !sign_clip by assumption.
      repeat (apply f_equal2; [field; assumption|]). reflexivity.
    + destruct (len3 _ Lg) as (g1 & g2 & g3 & ->). unfold signs in Sg; rewrite Forall_forall in Sg.
      assert (G1 := Sg g1 ltac:(cbn; auto)). assert (G2 := Sg g2 ltac:(cbn; auto)). assert (G3 := Sg g3 ltac:(cbn; auto)).
      destruct u as [|u1 [|u2 [|u3 []]]]; try discriminate. destruct s as [|p1 [|p2 [|p3 [|v1 [|v2 [|v3 []]]]]]]; try discriminate.
      cbn [flip zipw app]. do 4 eexists. split; [rewrite np_clip_scalar; reflexivity|]. split; [rewrite np_clip_scalar; reflexivity|].
      cbn [map]. split; [exact (Der [p1; p2; p3] [v1; v2; v3] [clipR (-1) 1 u1; clipR (-1) 1 u2; clipR (-1) 1 u3] eq_refl eq_refl eq_refl)|].
      split; [exact (Der [g1 * p1; g2 * p2; g3 * p3] [g1 * v1; g2 * v2; g3 * v3] [clipR (-1) 1 (g1 * u1); clipR (-1) 1 (g2 * u2); clipR (-1) 1 (g3 * u3)] eq_refl eq_refl eq_refl)|]. split; [reflexivity|].
      cbn [flip zipw app]. unfold axis_accel. rewrite !sign_clip by assumption.
      repeat (apply f_equal2; [field; assumption|]). reflexivity.
  - intros u u' _. split; apply oob_ok; exact I.
  - exact C1.
  - exact C2.
  - intros s s' S0. exists s, s'. rewrite !plain_limits by assumption. auto.
Qed.

(** ** Runs of constructed vehicles *)
Lemma fair_run S D (d : dyn xr) me w : d_method d = me -> fair S D me w ->
  d_method d = "Euler"%string \/ d_method d = "RK45"%string /\ equivariant_solver S D w /\ (forall s s', S s s' -> S s s').
Proof. intros <- [E|[E F]]; [left; exact E|right; auto]. Qed.
Lemma same_acts k acts : Forall (fun p : R * list R => length (snd p) = k) acts ->
  Forall2 (fun a b => fst a = fst b /\ same2 k (snd a) (snd b)) acts acts.
Proof. induction 1; constructor; auto. repeat split; auto. Qed.
Lemma flipped_acts sg acts : Forall (fun p : R * list R => length (snd p) = length sg) acts ->
  Forall2 (fun a b => fst a = fst b /\ flipped sg (snd a) (snd b)) acts (flip_acts sg acts).
Proof. induction 1; constructor; auto. cbn. repeat split; auto. Qed.

Lemma dubins2d_turn_run (w : world xr) k me v0 v1 h0 h1 a0 a1 x y hd v phi acts :
  fair (turned2 phi) (turned2_rate phi) me w -> Forall (fun p => length (snd p) = 2%nat) acts ->
  paired_runs me k (turned2 phi) (turned2_rate phi)
    (run w (dubins2d_aircraft k me (Fin v0) (Fin v1) (Fin h0) (Fin h1) (Fin a0) (Fin a1) (Fin x) (Fin y) (Fin hd) (Fin v)) (array_acts acts))
    (run w (dubins2d_aircraft k me (Fin v0) (Fin v1) (Fin h0) (Fin h1) (Fin a0) (Fin a1)
              (Fin (rot_x phi x y)) (Fin (rot_y phi x y)) (Fin (hd + phi)) (Fin v)) (array_acts acts)).
Proof.
  intros Fa La. eapply run_sym_both; [apply (dubins2d_turn_symmetry phi)|eapply fair_run; [reflexivity|exact Fa]|split; reflexivity|apply same_acts, La|].
  repeat (split; [reflexivity|]). exists [x; y; hd; v], [rot_x phi x y; rot_y phi x y; hd + phi; v], [0/1; 0/1; 0/1; 0/1], [0/1; 0/1; 0/1; 0/1].
  split; [reflexivity|]. split; [reflexivity|]. split.
  - exists x, y, hd, v, (hd + phi). repeat split. exists 0%Z. ring.
  - split; [reflexivity|]. split; [reflexivity|]. exists (0/1), (0/1), (0/1), (0/1). split; [reflexivity|].
    unfold rot_x, rot_y. repeat (apply f_equal2; [field|]). reflexivity.
Qed.
Lemma dubins2d_mirror_run (w : world xr) k me v0 v1 b a0 a1 x y hd v acts : 0 <= b ->
  fair mirrored2 (flipped [1; -1; -1; 1]) me w -> Forall (fun p => length (snd p) = 2%nat) acts ->
  paired_runs me k mirrored2 (flipped [1; -1; -1; 1])
    (run w (dubins2d_aircraft k me (Fin v0) (Fin v1) (Fin (- b)) (Fin b) (Fin a0) (Fin a1) (Fin x) (Fin y) (Fin hd) (Fin v)) (array_acts acts))
    (run w (dubins2d_aircraft k me (Fin v0) (Fin v1) (Fin (- b)) (Fin b) (Fin a0) (Fin a1)
              (Fin x) (Fin (- y)) (Fin (- hd)) (Fin v)) (array_acts (flip_acts [-1; 1] acts))).
Proof.
  intros Hb Fa La. eapply run_sym_both; [apply (dubins2d_mirror_symmetry v0 v1 k me b a0 a1 Hb)|eapply fair_run; [reflexivity|exact Fa]|split; reflexivity|apply flipped_acts, La|].
  repeat (split; [reflexivity|]). exists [x; y; hd; v], [x; - y; - hd; v], [0/1; 0/1; 0/1; 0/1], [0/1; 0/1; 0/1; 0/1].
  split; [reflexivity|]. split; [reflexivity|]. split.
  - exists x, y, hd, v, (- hd). repeat split. exists 0%Z. ring.
  - split; [reflexivity|]. split; [reflexivity|]. split; [reflexivity|]. cbn [flip zipw].
    repeat (apply f_equal2; [field|]). reflexivity.
Qed.
Lemma dubins3d_turn_run (w : world xr) k v0 v1 g0 g1 r0 r1 gr0 gr1 rr0 rr1 a0 a1 x y z hd ga ro v phi acts :
  0 < v0 <= v1 -> - (PI / 2) < r0 <= r1 -> r1 < PI / 2 -> - (PI / 2) < ro < PI / 2 -> 0 < v ->
  Forall (fun p => length (snd p) = 3%nat) acts ->
  paired_runs "Euler" k (turned3 phi) (turned3_rate phi)
    (run w (dubins3d_aircraft k "Euler" (Fin v0) (Fin v1) (Fin g0) (Fin g1) (Fin r0) (Fin r1) (Fin gr0) (Fin gr1) (Fin rr0) (Fin rr1) (Fin a0) (Fin a1)
              (Fin x) (Fin y) (Fin z) (Fin hd) (Fin ga) (Fin ro) (Fin v)) (array_acts acts))
    (run w (dubins3d_aircraft k "Euler" (Fin v0) (Fin v1) (Fin g0) (Fin g1) (Fin r0) (Fin r1) (Fin gr0) (Fin gr1) (Fin rr0) (Fin rr1) (Fin a0) (Fin a1)
              (Fin (rot_x phi x y)) (Fin (rot_y phi x y)) (Fin z) (Fin (hd + phi)) (Fin ga) (Fin ro) (Fin v)) (array_acts acts)).
Proof.
  intros Hv Hr Hr1 Hro Hv0 La.
  assert (W : forall r r', paired_runs "Euler" k (both (turned3 phi) flying) (turned3_rate phi) r r' -> paired_runs "Euler" k (turned3 phi) (turned3_rate phi) r r').
  { intros rA rB (Rr & Oo). split; [|exact Oo]. revert rA rB Rr Oo. intros [e|] [e'|]; cbn [related_runs]; auto. intros (s & s' & q & q' & A & B & (C & _) & D & F & G) _. exists s, s', q, q'. auto 10. }
  apply W. eapply run_sym_both; [apply (dubins3d_turn_symmetry phi); eassumption|left; reflexivity|split; reflexivity|apply same_acts, La|].
  repeat (split; [reflexivity|]). exists [x; y; z; hd; ga; ro; v], [rot_x phi x y; rot_y phi x y; z; hd + phi; ga; ro; v],
    [0/1; 0/1; 0/1; 0/1; 0/1; 0/1; 0/1], [0/1; 0/1; 0/1; 0/1; 0/1; 0/1; 0/1].
  split; [reflexivity|]. split; [reflexivity|]. split.
  - split; [|split; cbn; auto]. exists x, y, z, hd, ga, ro, v, (hd + phi). repeat split. exists 0%Z. ring.
  - split; [reflexivity|]. split; [reflexivity|]. exists (0/1), (0/1), (0/1), (0/1), (0/1), (0/1), (0/1). split; [reflexivity|].
    unfold rot_x, rot_y. repeat (apply f_equal2; [field|]). reflexivity.
Qed.
Lemma dubins3d_mirror_run (w : world xr) k v0 v1 g0 g1 r gr0 gr1 b a0 a1 x y z hd ga ro v acts :
  0 < v0 <= v1 -> 0 < r < PI / 2 -> 0 <= b -> - (PI / 2) < ro < PI / 2 -> 0 < v ->
  Forall (fun p => length (snd p) = 3%nat) acts ->
  paired_runs "Euler" k mirrored3 (flipped [1; -1; 1; -1; 1; -1; 1])
    (run w (dubins3d_aircraft k "Euler" (Fin v0) (Fin v1) (Fin g0) (Fin g1) (Fin (- r)) (Fin r) (Fin gr0) (Fin gr1) (Fin (- b)) (Fin b) (Fin a0) (Fin a1)
              (Fin x) (Fin y) (Fin z) (Fin hd) (Fin ga) (Fin ro) (Fin v)) (array_acts acts))
    (run w (dubins3d_aircraft k "Euler" (Fin v0) (Fin v1) (Fin g0) (Fin g1) (Fin (- r)) (Fin r) (Fin gr0) (Fin gr1) (Fin (- b)) (Fin b) (Fin a0) (Fin a1)
              (Fin x) (Fin (- y)) (Fin z) (Fin (- hd)) (Fin ga) (Fin (- ro)) (Fin v)) (array_acts (flip_acts [1; -1; 1] acts))).
Proof.
  intros Hv Hr Hb Hro Hv0 La.
  assert (W : forall r r', paired_runs "Euler" k (both mirrored3 flying) (flipped [1; -1; 1; -1; 1; -1; 1]) r r' -> paired_runs "Euler" k mirrored3 (flipped [1; -1; 1; -1; 1; -1; 1]) r r').
  { intros rA rB (Rr & Oo). split; [|exact Oo]. revert rA rB Rr Oo. intros [e|] [e'|]; cbn [related_runs]; auto. intros (s & s' & q & q' & A & B & (C & _) & D & F & G) _. exists s, s', q, q'. auto 10. }
  apply W. eapply run_sym_both; [apply dubins3d_mirror_symmetry; eassumption|left; reflexivity|split; reflexivity|apply flipped_acts, La|].
  repeat (split; [reflexivity|]). exists [x; y; z; hd; ga; ro; v], [x; - y; z; - hd; ga; - ro; v],
    [0/1; 0/1; 0/1; 0/1; 0/1; 0/1; 0/1], [0/1; 0/1; 0/1; 0/1; 0/1; 0/1; 0/1].
  split; [reflexivity|]. split; [reflexivity|]. split.
  - split; [|split; cbn; lra]. exists x, y, z, hd, ga, ro, v, (- hd). repeat split. exists 0%Z. ring.
  - split; [reflexivity|]. split; [reflexivity|]. split; [reflexivity|]. cbn [flip zipw]. repeat (apply f_equal2; [field|]). reflexivity.
Qed.

(** Vehicles whose constructor may raise. *)
Lemma cwh_mirror_run (w : world xr) m n k me x y z vx vy vz : m <> 0 -> fair (flipped [1; 1; -1; 1; 1; -1]) (flipped [1; 1; -1; 1; 1; -1]) me w ->
  flipped_runs me k [1; 1; -1; 1; 1; -1] [1; 1; -1] w (cwh_spacecraft (Fin m) (Fin n) k me (Fin x) (Fin y) (Fin z) (Fin vx) (Fin vy) (Fin vz))
    (cwh_spacecraft (Fin m) (Fin n) k me (Fin x) (Fin y) (Fin (- z)) (Fin vx) (Fin vy) (Fin (- vz))).
Proof.
  intros Hm Fa e e' acts E E' La. unfold cwh_spacecraft in *. destruct (cwh_dyn (Fin m) (Fin n) k me) as [d|] eqn:Ed; [|discriminate].
  cbn [bind] in E, E'. injection E as <-. injection E' as <-.
  destruct (cwh_plain _ _ _ _ _ _ Ed) as (_ & _ & _ & _ & _ & Me & Sm).
  eapply run_sym_both; [apply (cwh_mirror_symmetry m n k me d Hm Ed)|eapply fair_run; [exact Me|exact Fa]|split; [exact Me|exact Sm]|apply flipped_acts, La|].
  repeat (split; [reflexivity|]).
  split; [unfold mk_entity; cbn; do 2 f_equal; lra|]. split; [unfold mk_entity; cbn; do 2 f_equal; lra|].
  split; [unfold mk_entity; cbn; do 2 f_equal; lra|]. split; [unfold mk_entity; cbn; do 2 f_equal; lra|].
  exists [x; y; z; vx; vy; vz], [x; y; - z; vx; vy; - vz], [0/1; 0/1; 0/1; 0/1; 0/1; 0/1], [0/1; 0/1; 0/1; 0/1; 0/1; 0/1].
  split; [reflexivity|]. split; [reflexivity|]. split.
  - split; [reflexivity|]. cbn [flip zipw]. repeat (apply f_equal2; [ring|]). reflexivity.
  - split; [reflexivity|]. split; [reflexivity|]. split; [reflexivity|]. cbn [flip zipw]. repeat (apply f_equal2; [field|]). reflexivity.
Qed.
Lemma rot2d_flip_run (w : world xr) m i al vl iw aw vw n k me jax x y th vx vy wz : m <> 0 -> i <> 0 ->
  fair (flipped rot_sg) (flipped rot_sg) me w ->
  flipped_runs me k rot_sg [-1; -1; 1] w
    (rot2d_spacecraft w (Fin m) (Fin i) (Fin al) (Fin vl) (Fin iw) (Fin aw) (Fin vw) (Fin n) k me jax (Fin x) (Fin y) (Fin th) (Fin vx) (Fin vy) (Fin wz))
    (rot2d_spacecraft w (Fin m) (Fin i) (Fin al) (Fin vl) (Fin iw) (Fin aw) (Fin vw) (Fin n) k me jax (Fin (- x)) (Fin (- y)) (Fin th) (Fin (- vx)) (Fin (- vy)) (Fin wz)).
Proof.
  intros Hm Hi Fa e e' acts E E' La. unfold rot2d_spacecraft, rot2d_limit, pydiv in *. cbn [neqb XR xeqb n0] in E, E'.
  unfold xeqb in *. cbn in E, E'.
  rewrite !(Req_bool_false i (0/1)) in E, E' by lra. cbn [bind] in E, E'.
  change (@nmul xr (XR Fin)) with xmul in *. change (@ndiv xr (XR Fin)) with xdiv in *. cbn in E, E'.
  rewrite !Req_bool_false in E, E' by auto.
  assert (PM : forall a b, py_min (Fin a) (Fin b) = Fin (Rmin a b)).
  { intros. unfold py_min, Rmin. cbn. destruct (Rlt_bool_spec b a), (Rle_dec a b); f_equal; lra. }
  rewrite !PM in E, E'.
  destruct (rot2d_dyn w (Fin m) (Fin i) _ _ (Fin n) k me jax) as [d|] eqn:Ed; [|discriminate].
  cbn [bind] in E, E'. injection E as <-. injection E' as <-.
  pose proof (rot2d_dyn_inv _ _ _ _ _ _ _ _ _ _ Ed) as Inv.
  eapply run_sym_both; [apply (rot2d_flip_symmetry w m i _ _ n k me jax d Hm Hi Ed (- Rmin al (iw * aw / i) * i) (Rmin al (iw * aw / i) * i))
    |eapply fair_run; [apply Inv|exact Fa]|split; apply Inv|apply flipped_acts, La|].
  unfold mk_entity, zeros_like. cbn [e_dyn e_cmin e_cmax e_state e_sdot amap map].
  split; [reflexivity|]. split; [reflexivity|].
  assert (Q1 : -1 / 1 = -1) by lra. assert (Q2 : 1 / 1 = 1) by lra. rewrite Q1, Q2.
  repeat (split; [reflexivity|]).
  exists [x; y; th; vx; vy; wz], [- x; - y; th; - vx; - vy; wz], [0/1; 0/1; 0/1; 0/1; 0/1; 0/1], [0/1; 0/1; 0/1; 0/1; 0/1; 0/1].
  split; [reflexivity|]. split; [reflexivity|]. split.
  - split; [reflexivity|]. unfold rot_sg. cbn [flip zipw]. repeat (apply f_equal2; [ring|]). reflexivity.
  - split; [reflexivity|]. split; [reflexivity|]. split; [reflexivity|]. unfold rot_sg. cbn [flip zipw]. repeat (apply f_equal2; [field|]). reflexivity.
Qed.

Lemma sixdof_sdot0 (m : xr) I al vl iw aw vw thr body n k me x y z q1 q2 q3 q4 vx vy vz wx wy wz e :
  sixdof_spacecraft m I al vl iw aw vw thr body n k me x y z q1 q2 q3 q4 vx vy vz wx wy wz = Ok e ->
  e_sdot e = zeros_like (e_state e) .
Proof.
  unfold sixdof_spacecraft. repeat (match goal with |- context [bind ?r _] => destruct r as [?|]; cbn [bind]; [|discriminate] end;
    repeat match goal with |- context [let '(_, _) := ?p in _] => destruct p as [? ?] end).
  intros H. injection H as <-. reflexivity.
Qed.
Lemma sixdof_mirror_run (w0 : world xr) m I i0 i1 i2 A V al vl iw aw vw thr body n k me x y z q1 q2 q3 q4 vx vy vz wx wy wz :
  sd_ok m I i0 i1 i2 -> limit_arg A al -> limit_arg V vl -> fair (flipped six_sg) (flipped six_sg) me w0 -> 0 <= thr ->
  (let '(l0, l1, _) := wheel_limit vl iw vw i0 i1 i2 in 0 < l0 /\ 0 < l1) ->
  (let '(c0, c1, _) := inertia_mul i0 i1 i2 (wheel_limit al iw aw i0 i1 i2) in 0 <= c0 /\ 0 <= c1) ->
  flipped_runs me k six_sg six_ug w0
    (sixdof_build m I A V iw aw vw thr body n k me (x, y, z) ((q1, q2, q3), q4) (vx, vy, vz) (wx, wy, wz))
    (sixdof_build m I A V iw aw vw thr body n k me (x, y, - z) ((- q1, - q2, q3), q4) (vx, vy, - vz) (- wx, - wy, wz)).
Proof.
  intros Kk La Lv Fa Ht Hl Hc e e' acts E E' Lacts.
  destruct (sixdof_limits _ _ _ _ _ _ _ _ _ _ _ _ _ _ _ _ _ _ _ _ _ _ Kk La Lv E) as (D & Cx & Cm & Es).
  destruct (sixdof_limits _ _ _ _ _ _ _ _ _ _ _ _ _ _ _ _ _ _ _ _ _ _ Kk La Lv E') as (D' & Cx' & Cm' & Es').
  assert (Z := sixdof_sdot0 _ _ _ _ _ _ _ _ _ _ _ _ _ _ _ _ _ _ _ _ _ _ _ _ _ _ E).
  assert (Z' := sixdof_sdot0 _ _ _ _ _ _ _ _ _ _ _ _ _ _ _ _ _ _ _ _ _ _ _ _ _ _ E').
  destruct (wheel_limit vl iw vw i0 i1 i2) as [[l0 l1] l2]. destruct Hl as [H0 H1].
  destruct (inertia_mul i0 i1 i2 (wheel_limit al iw aw i0 i1 i2)) as [[c0 c1] c2]. destruct Hc as [K0 K1].
  pose proof (sixdof_dyn_inv _ _ _ _ _ _ _ _ _ _ D) as Inv.
  eapply run_sym_both; [exact (sixdof_mirror_symmetry m I i0 i1 i2 l0 l1 l2 n body k me (e_dyn e) Kk H0 H1 D thr c0 c1 c2 Ht K0 K1)
    |eapply fair_run; [apply Inv|exact Fa]|split; apply Inv|apply flipped_acts, Lacts|].
  split; [reflexivity|]. split; [congruence|]. split; [rewrite Cm; cbv [sd_ctrl neg3 scale3 map]; fin_list; ring|].
  split; [rewrite Cm'; cbv [sd_ctrl neg3 scale3 map]; fin_list; ring|]. split; [exact Cx|]. split; [exact Cx'|].
  rewrite Es in Z. rewrite Es' in Z'. do 4 eexists. split; [exact Es|]. split; [exact Es'|]. split.
  - split; [reflexivity|]. unfold six_sg. cbn [flip zipw sd_state]. repeat (apply f_equal2; [ring|]). reflexivity.
  - split; [exact (eq_trans Z (eq_refl (A1 (map Fin [0/1; 0/1; 0/1; 0/1; 0/1; 0/1; 0/1; 0/1; 0/1; 0/1; 0/1; 0/1; 0/1]))))|].
    split; [exact (eq_trans Z' (eq_refl (A1 (map Fin [0/1; 0/1; 0/1; 0/1; 0/1; 0/1; 0/1; 0/1; 0/1; 0/1; 0/1; 0/1; 0/1]))))|].
    split; [reflexivity|]. unfold six_sg. cbn [flip zipw]. repeat (apply f_equal2; [field|]). reflexivity.
Qed.

Lemma integ_flip_ent (w : world xr) m c mode k sa me d cdef cmap s s' sg : m <> 0 -> offered mode k -> integ_dyn (Fin m) (Fin c) mode sa me = Ok d ->
  length sg = k -> signs sg -> fair (flipped (sg ++ sg)) (flipped (sg ++ sg)) me w -> flipped (sg ++ sg) s s' -> forall acts,
  Forall (fun p : R * list R => length (snd p) = length sg) acts ->
  paired_runs me sa (flipped (sg ++ sg)) (flipped (sg ++ sg))
    (run w (mk_entity d cdef (A0 (nZ (-1))) (A0 n1) cmap (A1 (map Fin s))) (array_acts acts))
    (run w (mk_entity d cdef (A0 (nZ (-1))) (A0 n1) cmap (A1 (map Fin s'))) (array_acts (flip_acts sg acts))).
Proof.
  intros Hm Of E Lg Sg Fa Ss acts La.
  assert (MS : d_method d = me /\ d_samples d = sa). { destruct (integ_ok Fin m c mode k sa me Hm Of) as (d' & E' & H). assert (d' = d) by congruence. subst d'. split; apply H. }
  destruct MS as (Me & Sm).
  eapply run_sym_both; [apply (integ_flip_symmetry m c mode k sa me d sg Hm Of E Lg Sg)|eapply fair_run; [exact Me|exact Fa]|split; [exact Me|exact Sm]|apply flipped_acts, La|].
  unfold mk_entity, zeros_like. cbn [e_dyn e_cmin e_cmax e_state e_sdot amap nZ n1 nlit XR].
  assert (Q1 : -1 / 1 = -1) by lra. assert (Q2 : 1 / 1 = 1) by lra. rewrite Q1, Q2.
  repeat (split; [reflexivity|]).
  exists s, s', (map (fun _ => 0/1) s), (map (fun _ => 0/1) s'). split; [reflexivity|]. split; [reflexivity|]. split; [exact Ss|].
  split; [now rewrite !map_map|]. split; [now rewrite !map_map|]. destruct Ss as (Ls & ->). split; [now rewrite map_length|].
  revert Ls. generalize (sg ++ sg). induction s as [|a s IH]; intros [|g gs] L; try discriminate; [reflexivity|].
  cbn. f_equal; [field|]. apply IH. cbn in L. lia.
Qed.
Lemma integ1_flip_run (w : world xr) m c k me x vx g1 : m <> 0 -> signs [g1] -> fair (flipped [g1; g1]) (flipped [g1; g1]) me w ->
  flipped_runs me k [g1; g1] [g1] w (integrator1d_body (Fin m) (Fin c) k me (Fin x) (Fin vx))
    (integrator1d_body (Fin m) (Fin c) k me (Fin (g1 * x)) (Fin (g1 * vx))).
Proof.
  intros Hm Sg Fa e e' acts E E' La. unfold integrator1d_body in *. destruct (integ_dyn _ _ _ _ _) as [d|] eqn:Ed; [|discriminate].
  injection E as <-. injection E' as <-.
  exact (integ_flip_ent w m c "1d" 1 k me d _ _ [x; vx] [g1 * x; g1 * vx] [g1] Hm (or_introl (conj eq_refl eq_refl)) Ed eq_refl Sg Fa (conj eq_refl eq_refl) acts La).
Qed.
Lemma integ2_flip_run (w : world xr) m c k me x y vx vy g1 g2 : m <> 0 -> signs [g1; g2] -> fair (flipped [g1; g2; g1; g2]) (flipped [g1; g2; g1; g2]) me w ->
  flipped_runs me k [g1; g2; g1; g2] [g1; g2] w (integrator2d_body (Fin m) (Fin c) k me (Fin x) (Fin y) (Fin vx) (Fin vy))
    (integrator2d_body (Fin m) (Fin c) k me (Fin (g1 * x)) (Fin (g2 * y)) (Fin (g1 * vx)) (Fin (g2 * vy))).
Proof.
  intros Hm Sg Fa e e' acts E E' La. unfold integrator2d_body in *. destruct (integ_dyn _ _ _ _ _) as [d|] eqn:Ed; [|discriminate].
  injection E as <-. injection E' as <-.
  exact (integ_flip_ent w m c "2d" 2 k me d _ _ [x; y; vx; vy] [g1 * x; g2 * y; g1 * vx; g2 * vy] [g1; g2] Hm
    (or_intror (or_introl (conj eq_refl eq_refl))) Ed eq_refl Sg Fa (conj eq_refl eq_refl) acts La).
Qed.
Lemma integ3_flip_run (w : world xr) m c k me x y z vx vy vz g1 g2 g3 : m <> 0 -> signs [g1; g2; g3] ->
  fair (flipped [g1; g2; g3; g1; g2; g3]) (flipped [g1; g2; g3; g1; g2; g3]) me w ->
  flipped_runs me k [g1; g2; g3; g1; g2; g3] [g1; g2; g3] w (integrator3d_body (Fin m) (Fin c) k me (Fin x) (Fin y) (Fin z) (Fin vx) (Fin vy) (Fin vz))
    (integrator3d_body (Fin m) (Fin c) k me (Fin (g1 * x)) (Fin (g2 * y)) (Fin (g3 * z)) (Fin (g1 * vx)) (Fin (g2 * vy)) (Fin (g3 * vz))).
Proof.
  intros Hm Sg Fa e e' acts E E' La. unfold integrator3d_body in *. destruct (integ_dyn _ _ _ _ _) as [d|] eqn:Ed; [|discriminate].
  injection E as <-. injection E' as <-.
  exact (integ_flip_ent w m c "3d" 3 k me d _ _ [x; y; z; vx; vy; vz] [g1 * x; g2 * y; g3 * z; g1 * vx; g2 * vy; g3 * vz] [g1; g2; g3] Hm
    (or_intror (or_intror (conj eq_refl eq_refl))) Ed eq_refl Sg Fa (conj eq_refl eq_refl) acts La).
Qed.

(** ** Runge-Kutta methods respect mirror images and turns *)
Lemma erk_flipped sg tb : equivariant_solver (flipped sg) (flipped sg) (erk_world tb).
Proof. apply erk_equivariant. destruct (flip_compatible sg sg eq_refl eq_refl) as (C1 & C2). split; assumption. Qed.
Lemma erk_turned2 phi tb : equivariant_solver (turned2 phi) (turned2_rate phi) (erk_world tb).
Proof.
  apply erk_equivariant. pose proof (dubins2d_turn_symmetry phi 0 0 0%Z "Euler" 0 0 0 0) as Sy.
  split; [exact (sy_len _ _ _ _ _ _ _ Sy)|exact (sy_add _ _ _ _ _ _ _ Sy)].
Qed.
Lemma erk_mirrored2 tb : equivariant_solver mirrored2 (flipped [1; -1; -1; 1]) (erk_world tb).
Proof.
  apply erk_equivariant. pose proof (dubins2d_mirror_symmetry 0 0 0%Z "Euler" 0 0 0 (Rle_refl 0)) as Sy.
  split; [exact (sy_len _ _ _ _ _ _ _ Sy)|exact (sy_add _ _ _ _ _ _ _ Sy)].
Qed.

(** ** Examples *)
Lemma C100_ex : forall w, exists e1 e2,
  run w (dubins2d_aircraft 0 "Euler" (Fin 10) (Fin 100) (Fin (-1)) (Fin 1) (Fin (-5)) (Fin 5) (Fin 3) (Fin 0) (Fin 0) (Fin 50))
    (array_acts [(2, [0; 7])]) = Ok e1 /\
  run w (dubins2d_aircraft 0 "Euler" (Fin 10) (Fin 100) (Fin (-1)) (Fin 1) (Fin (-5)) (Fin 5) (Fin 0) (Fin 3) (Fin (PI / 2)) (Fin 50))
    (array_acts [(2, [0; 7])]) = Ok e2 /\
  e_state e1 = A1 (map Fin [103; 0; 0; 60]) /\ e_state e2 = A1 (map Fin [0; 103; PI / 2; 60]).
Proof.
  intros w.
  assert (H1 : forall x y hd, - PI < hd < PI -> exists e, run w (dubins2d_aircraft 0 "Euler" (Fin 10) (Fin 100) (Fin (-1)) (Fin 1) (Fin (-5)) (Fin 5) (Fin x) (Fin y) (Fin hd) (Fin 50))
    (array_acts [(2, [0; 7])]) = Ok e /\ e_state e = A1 (map Fin [x + 2 * (50 * cos hd); y + 2 * (50 * sin hd); hd; 60])).
  { intros x y hd Hh.
    destruct (dubins2d_turn_run w 0 "Euler" 10 100 (-1) 1 (-5) 5 x y hd 50 0 [(2, [0; 7])]) as (_ & O); [left; reflexivity|repeat constructor|].
    specialize (O eq_refl (Z.le_refl 0)). destruct (run w _ _) as [e|] eqn:Er; [|discriminate]. exists e. split; [reflexivity|].
    revert Er. cbn [run array_acts map fst snd]. unfold entity_step.
    match goal with |- context [e_dyn ?x] => set (e0 := x) end.
    cbn [decode_action]. change (e_cmin e0) with (A1 [Fin (-1); Fin (-5)]). change (e_cmax e0) with (A1 [Fin 1; Fin 5]).
    change (A1 [Fin 0; Fin 7]) with (A1 (map Fin [0; 7])). rewrite clip_two.
    destruct (out_of_bounds _ _ _) as [b|] eqn:Eb; [|cbn; discriminate]. cbn [bind].
    unfold dyn_step, dyn__step. change (d_method (e_dyn e0)) with "Euler"%string. cbn [String.eqb Ascii.eqb Bool.eqb].
    change (d_samples (e_dyn e0)) with 0%Z. cbn [Z.leb Z.compare py_assert bind].
    change (e_state e0) with (A1 (map Fin [x; y; hd; 50])). change (e_dyn e0) with (dubins2d_dyn (Fin 10) (Fin 100) 0%Z "Euler").
    rewrite (dubins2d_csd (fun x => x)). cbn [bind amap bmap2 map length Nat.eqb].
    cbn [nadd nmul XR xadd xmul].
    match goal with |- context [np_clip (A1 ?l) _ _] => change l with (map Fin
      [x + 2 * (50 * cos hd); y + 2 * (50 * sin hd); hd + 2 * clipR (-1) 1 0; 50 + 2 * stopR 10 100 50 (clipR (-5) 5 7)]) end.
    pose proof (d2_limits 10 100 0%Z "Euler" (x + 2 * (50 * cos hd)) (y + 2 * (50 * sin hd)) (hd + 2 * clipR (-1) 1 0) (50 + 2 * stopR 10 100 50 (clipR (-5) 5 7))) as L.
    destruct (np_clip _ _ _) as [r|]; [|discriminate]. cbn [bind] in L |- *. rewrite L. cbn [bind o_res].
    intros Er. injection Er as <-. cbn [o_entity with_step e_state].
    assert (Q : wrapR 0 (hd + 2 * clipR (-1) 1 0) = hd).
    { replace (clipR (-1) 1 0) with 0 by (unfold clipR; rewrite Rmax_left, Rmin_left by lra; reflexivity).
      replace (hd + 2 * 0) with hd by ring. rewrite wrapR_id by lra. ring. }
    assert (Q' : clipR 10 100 (50 + 2 * stopR 10 100 50 (clipR (-5) 5 7)) = 60).
    { replace (clipR (-5) 5 7) with 5 by (unfold clipR; rewrite Rmax_left, Rmin_right by lra; reflexivity).
      unfold stopR. repeat destruct (Rle_dec _ _); try lra. all: unfold clipR, Rmax, Rmin; repeat destruct (Rle_dec _ _); lra. }
    rewrite Q, Q'. reflexivity. }
  pose proof PI_RGT_0. destruct (H1 3 0 0 ltac:(lra)) as (e1 & R1 & S1). destruct (H1 0 3 (PI / 2) ltac:(lra)) as (e2 & R2 & S2).
  exists e1, e2. split; [exact R1|]. split; [exact R2|]. rewrite S1, S2, cos_0, sin_0, cos_PI2, sin_PI2.
  split; cbn [map]; f_equal; repeat (apply f_equal2; [f_equal; ring|]); reflexivity.
Qed.

Lemma C101_ex : forall w, exists e1 e2,
  (e <- cwh_spacecraft (Fin 1) (Fin (1/2)) 0 "Euler" (Fin 3) (Fin 1) (Fin 4) (Fin 0) (Fin 2) (Fin 1) ;; run w e (array_acts [(2, [0; 5; 1])])) = Ok e1 /\
  (e <- cwh_spacecraft (Fin 1) (Fin (1/2)) 0 "Euler" (Fin 3) (Fin 1) (Fin (-4)) (Fin 0) (Fin 2) (Fin (-1)) ;; run w e (array_acts [(2, [0; 5; -1])])) = Ok e2 /\
  e_state e1 = A1 (map Fin [3; 5; 6; 17/2; 4; 1]) /\ e_state e2 = A1 (map Fin [3; 5; -6; 17/2; 4; -1]).
Proof.
  intros w. unfold cwh_spacecraft.
  destruct (cwh_dyn (Fin 1) (Fin (1/2)) 0 "Euler") as [d|] eqn:Ed.
  2: { revert Ed. unfold cwh_dyn, generate_cwh_matrices, pydiv. cbn. rewrite Req_bool_false by lra. cbn. discriminate. }
  cbn [bind]. destruct (cwh_plain _ _ _ _ _ _ Ed) as (H1 & H2 & H3 & H4 & H5 & Me & Sm).
  assert (G : forall z vz uz, exists e1,
    run w (mk_entity d (A1 [n0; n0; n0]) (A0 (nZ (-1))) (A0 n1) (Some cwh_control_map) (A1 (map nf32 [Fin 3; Fin 1; Fin z; Fin 0; Fin 2; Fin vz])))
      (array_acts [(2, [0; 5; uz])]) = Ok e1 /\ e_state e1 = A1 (map Fin [3; 5; z + 2 * vz; 17/2; 4; vz + 2 * (- (1/2)^2 * z + clipR (-1) 1 uz)])).
  { intros z vz uz. cbn [run array_acts map fst snd]. unfold entity_step. match goal with |- context [e_dyn ?x] => set (e0 := x) end.
    cbn [decode_action]. change (e_cmin e0) with (A0 (Fin (-1/1))). change (e_cmax e0) with (A0 (Fin (1/1))).
    replace (-1/1) with (-1) by lra. replace (1/1) with 1 by lra.
    change (A1 [Fin 0; Fin 5; Fin uz]) with (A1 (map Fin [0; 5; uz])).
    rewrite np_clip_scalar.
    assert (Ob := oob_ok (A1 (map Fin [0; 5; uz])) (A0 (Fin (-1))) (A0 (Fin 1)) I I). destruct (out_of_bounds _ _ _) as [b|]; [|discriminate]. cbn [bind map].
    unfold dyn_step, dyn__step. change (e_dyn e0) with d. rewrite Me, Sm. cbn [String.eqb Ascii.eqb Bool.eqb Z.leb Z.compare py_assert bind].
    change (e_state e0) with (A1 [Fin 3; Fin 1; Fin z; Fin 0; Fin 2; Fin vz]).
    rewrite (cwh_csd Fin 1 (1/2) 0%Z "Euler" d ltac:(lra) Ed). cbn [bind amap bmap2 map length Nat.eqb zipw nadd nmul XR xadd xmul].
    match goal with |- context [np_clip (A1 ?l) _ _] => set (q := l) end.
    assert (Eq : q = map Fin [3; 5; z + 2 * vz; 17/2; 4; vz + 2 * (- (1/2)^2 * z + clipR (-1) 1 uz)]).
    { unfold q. cbn [map].
      replace (clipR (-1) 1 0) with 0 by (unfold clipR; rewrite Rmax_left, Rmin_left by lra; reflexivity).
      replace (clipR (-1) 1 5) with 1 by (unfold clipR; rewrite Rmax_left, Rmin_right by lra; reflexivity).
      repeat (apply f_equal2; [f_equal; field|]); reflexivity. }
    rewrite Eq. pose proof (plain_limits d [3; 5; z + 2 * vz; 17/2; 4; vz + 2 * (- (1/2)^2 * z + clipR (-1) 1 uz)] H1 H2 H5) as L.
    destruct (np_clip _ (d_min d) (d_max d)) as [r|]; [|discriminate]. cbn [bind] in L |- *. rewrite L. cbn [bind o_res o_entity].
    eexists. split; reflexivity. }
  destruct (G 4 1 1) as (e1 & R1 & S1). destruct (G (-4) (-1) (-1)) as (e2 & R2 & S2). exists e1, e2. split; [exact R1|]. split; [exact R2|].
  rewrite S1, S2.
  replace (clipR (-1) 1 1) with 1 by (unfold clipR; rewrite Rmax_left, Rmin_left by lra; reflexivity).
  replace (clipR (-1) 1 (-1)) with (-1) by (unfold clipR; rewrite Rmax_left, Rmin_left by lra; reflexivity).
  split; cbn [map]; f_equal; repeat (apply f_equal2; [f_equal; field|]); reflexivity.
Qed.
