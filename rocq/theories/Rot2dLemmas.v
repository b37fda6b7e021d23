(** The 2d rotational spacecraft over exact reals with rounding [rd] for binary32 casts. *)
From Coq Require Import String List Bool Arith ZArith Lia Reals Lra.
From Flocq Require Import Core.Core.
From Verif Require Import PyBase Num Arr BaseModel Cwh Rot2d Spec SpecBase SpecWrap XReal NumOrdLemmas ArrLemmas
  BaseLemmas BaseLemmas2 BaseLemmas3 BaseLemmas4 WrapLemmas XTac SpecRk SpecCwh RkLemmas CwhLemmas LimLemmas.
Import List ListNotations.

Section G.
  Context {T : Type} {N : Num T}.

  Lemma rot2d_dyn_inv (w : world T) m inertia acc vel n samples method jax d :
    rot2d_dyn w m inertia acc vel n samples method jax = Ok d ->
    d_min d = A1 [nninf; nninf; nninf; nninf; nninf; nneg vel] /\
    d_max d = A1 [npinf; npinf; npinf; npinf; npinf; vel] /\
    d_sdmin d = A1 [nninf; nninf; nneg vel; nninf; nninf; nneg acc] /\
    d_sdmax d = A1 [npinf; npinf; vel; npinf; npinf; acc] /\
    d_wrap d = Some (A1 [nnan; nnan; n0; nnan; nnan; nnan]) /\
    d_samples d = samples /\ d_method d = method /\ d_use_jax d = jax /\
    exists A B, generate_cwh_matrices m n "2d" = Ok (A, B) /\
                d_raw d = affine_raw (rot2d_f A) (rot2d_g m inertia).
  Proof.
    unfold rot2d_dyn. destruct (_ && _); [discriminate|].
    destruct (generate_cwh_matrices m n "2d") as [[A B]|] eqn:E; [|discriminate]. cbn [bind].
    destruct (py_assert _); [|discriminate]. cbn [bind]. destruct (py_assert _); [|discriminate]. cbn [bind].
    intros H. injection H as <-. cbn. repeat (split; [reflexivity|]). exists A, B. auto.
  Qed.

  Lemma rot2d_craft_inv (w : world T) m inertia al vl iw aw vw n samples method jax x y th vx vy wz e :
    rot2d_spacecraft w m inertia al vl iw aw vw n samples method jax x y th vx vy wz = Ok e ->
    exists qa qv,
      pydiv (nmul iw aw) inertia = Ok qa /\ pydiv (nmul iw vw) inertia = Ok qv /\
      rot2d_dyn w m inertia (py_min al qa) (py_min vl qv) n samples method jax = Ok (e_dyn e) /\
      e_cmin e = A1 [nZ (-1); nZ (-1); nmul (nneg (py_min al qa)) inertia] /\
      e_cmax e = A1 [n1; n1; nmul (py_min al qa) inertia] /\
      e_default e = A1 [n0; n0; n0] /\ e_state e = A1 (map nf32 [x; y; th; vx; vy; wz]) /\
      e_cmap e = Some rot2d_control_map.
  Proof.
    unfold rot2d_spacecraft, rot2d_limit.
    destruct (pydiv (nmul iw aw) inertia) as [qa|]; [|discriminate]. cbn [bind].
    destruct (pydiv (nmul iw vw) inertia) as [qv|]; [|discriminate]. cbn [bind].
    destruct (rot2d_dyn _ _ _ _ _ _ _ _ _) as [d|] eqn:E; [|discriminate]. cbn [bind].
    intros H. injection H as <-. exists qa, qv. cbn. repeat split; auto.
  Qed.
End G.

Section X.
  Variable rd : R -> R.
  Local Hint Extern 0 (Num xr) => exact (XR (fun x => Fin (rd x))) : typeclass_instances.
  Local Open Scope R_scope.

  Definition rot2d_rate (m inertia acc vel n : R) (s u : list R) : list R :=
    match s, u with
    | [x; y; th; vx; vy; wz], [fx; fy; mz] =>
        [rd (rd vx); rd (rd vy); clipR (- vel) vel (rd wz);
         rd (3 * n^2 * rd x + 2 * n * rd vy) + (cos th * fx - sin th * fy) / m;
         rd (- 2 * n * rd vx) + (sin th * fx + cos th * fy) / m;
         stopR (- vel) vel wz (clipR (- acc) acc (rd 0 + mz / inertia))]
    | _, _ => []
    end.
  Definition rot2d_next (m inertia acc vel n h : R) (s u : list R) : list R :=
    match s, rot2d_rate m inertia acc vel n s u with
    | [x; y; th; vx; vy; wz], [dx; dy; dth; ax; ay; az] =>
        [x + h * dx; y + h * dy; wrapR 0 (th + h * dth); vx + h * ax; vy + h * ay;
         clipR (- vel) vel (wz + h * az)]
    | _, _ => []
    end.

  Lemma rot2d_raw (w : world xr) m inertia acc vel n samples method jax d : m <> 0 -> inertia <> 0 ->
    rot2d_dyn w (Fin m) (Fin inertia) acc vel (Fin n) samples method jax = Ok d ->
    forall t x y th vx vy wz fx fy mz,
      d_raw d t (A1 (map Fin [x; y; th; vx; vy; wz])) (A1 (map Fin [fx; fy; mz])) = Ok (A1 (map Fin
        [rd (rd vx); rd (rd vy); rd wz;
         rd (3 * n^2 * rd x + 2 * n * rd vy) + (cos th * fx - sin th * fy) / m;
         rd (- 2 * n * rd vx) + (sin th * fx + cos th * fy) / m;
         rd 0 + mz / inertia])).
  Proof.
    intros Hm Hi E. destruct (rot2d_dyn_inv _ _ _ _ _ _ _ _ _ _ E) as (_ & _ & _ & _ & _ & _ & _ & _ & A & B & G & ->).
    revert G. unfold generate_cwh_matrices, pydiv. cbn.
    rewrite (Req_bool_false m (0/1)) by lra. cbn. rewrite (Req_bool_false m 0) by lra.
    intros G. injection G as <- _. intros. unfold affine_raw, rot2d_g, pydiv. cbn.
    rewrite (Req_bool_false inertia (0/1)) by lra. cbn.
    rewrite (Req_bool_false m 0) by lra. rewrite (Req_bool_false inertia 0) by lra. cbn.
    assert (Q : forall a b c d, a = b -> c = d -> rd a + c = rd b + d) by (intros; subst; auto).
    assert (Q0 : forall a b c, a = b -> c = 0 -> rd a + c = rd b) by (intros; subst; lra).
    fin_list; first [apply Q0 | apply Q]; field; auto.
  Qed.

  Lemma rot2d_csd (w : world xr) m inertia acc vel n samples method jax d : m <> 0 -> inertia <> 0 ->
    rot2d_dyn w (Fin m) (Fin inertia) (Fin acc) (Fin vel) (Fin n) samples method jax = Ok d ->
    forall t x y th vx vy wz fx fy mz,
      compute_state_dot d t (A1 (map Fin [x; y; th; vx; vy; wz])) (A1 (map Fin [fx; fy; mz])) =
      Ok (A1 (map Fin (rot2d_rate m inertia acc vel n [x; y; th; vx; vy; wz] [fx; fy; mz]))).
  Proof.
    intros Hm Hi E t x y th vx vy wz fx fy mz.
    destruct (rot2d_dyn_inv _ _ _ _ _ _ _ _ _ _ E) as (D1 & D2 & D3 & D4 & _).
    erewrite csd_list; [|..|apply (rot2d_raw w m inertia _ _ n _ _ _ _ Hm Hi E)];
      rewrite ?D1, ?D2, ?D3, ?D4; try reflexivity.
    cbn [expand lim_list map]. 
    change (@nninf xr _) with NInf. change (@npinf xr _) with PInf. cbn [nneg XR xneg].
    rewrite !limited_inf, limited_rate, limited_both. reflexivity.
  Qed.

  Lemma rot2d_euler (w : world xr) m inertia acc vel n samples e h s u : m <> 0 -> inertia <> 0 -> (samples <= 0)%Z ->
    forall jax, rot2d_dyn w (Fin m) (Fin inertia) (Fin acc) (Fin vel) (Fin n) samples "Euler" jax = Ok (e_dyn e) ->
    length s = 6%nat -> length u = 3%nat -> e_state e = A1 (map Fin s) ->
    forall lo hi, e_cmin e = A1 (map Fin lo) -> e_cmax e = A1 (map Fin hi) -> length lo = 3%nat -> length hi = 3%nat ->
    let o := entity_step w e (Fin h) (AArr (A1 (map Fin u))) in
    let u' := zipw (fun x p => clipR (fst p) (snd p) x) u (zipw pair lo hi) in
    o_res o = Ok tt /\
    e_sdot (o_entity o) = A1 (map Fin (rot2d_rate m inertia acc vel n s u')) /\
    e_state (o_entity o) = A1 (map Fin (rot2d_next m inertia acc vel n h s u')).
  Proof.
    intros Hm Hi Sa jax E Ls Lu Es lo hi C1 C2 L1 L2 o u'. subst o u'.
    destruct (rot2d_dyn_inv _ _ _ _ _ _ _ _ _ _ E) as (D1 & D2 & _ & _ & D5 & D6 & D7 & _).
    destruct s as [|x [|y [|th [|vx [|vy [|wz []]]]]]]; try discriminate.
    destruct u as [|fx [|fy [|mz []]]]; try discriminate.
    destruct lo as [|a0 [|a1 [|a2 []]]]; try discriminate.
    destruct hi as [|b0 [|b1 [|b2 []]]]; try discriminate.
    edestruct (euler_list w e (Fin h) (map Fin [x; y; th; vx; vy; wz]) (map Fin [fx; fy; mz])) as (R1 & R2 & R3);
      [exact D7|rewrite D6; exact Sa|exact Es|rewrite C1; reflexivity|rewrite C2; reflexivity|..|].
    1:{ rewrite C1, C2. cbn [expand clip_list map]. rewrite !clip1_Fin.
        exact (rot2d_csd w m inertia acc vel n _ _ _ _ Hm Hi E _ x y th vx vy wz _ _ _). }
    1: reflexivity. 1: rewrite D1; reflexivity. 1: rewrite D2; reflexivity. 1: exact D5. 1: reflexivity.
    split; [exact R1|]. split; [exact R2|].
    rewrite R3, D1, D2. cbn [expand clip_list map rot2d_rate zipw]. change (@nnan xr _) with NaN.
    change (@nninf xr _) with NInf. change (@npinf xr _) with PInf. cbn [nneg XR xneg nadd nmul xadd xmul].
    rewrite !clip1_none, clip1_Fin. cbn [wrap_list nisnan XR xisnan n0].
    rewrite n0_Fin, wrap1_Fin. reflexivity.
  Qed.

  (** ** Limits *)
  Lemma rot2d_limits (w : world xr) m inertia al vl iw aw vw n samples method jax x y th vx vy wz e :
    0 < inertia ->
    rot2d_spacecraft w (Fin m) (Fin inertia) (Fin al) (Fin vl) (Fin iw) (Fin aw) (Fin vw) n samples method jax
      x y th vx vy wz = Ok e ->
    let acc := Rmin al (iw * aw / inertia) in
    let vel := Rmin vl (iw * vw / inertia) in
    rot2d_dyn w (Fin m) (Fin inertia) (Fin acc) (Fin vel) n samples method jax = Ok (e_dyn e) /\
    e_cmin e = A1 (map Fin [-1; -1; - acc * inertia]) /\ e_cmax e = A1 (map Fin [1; 1; acc * inertia]).
  Proof.
    intros Hi E acc vel. destruct (rot2d_craft_inv _ _ _ _ _ _ _ _ _ _ _ _ _ _ _ _ _ _ _ E) as
      (qa & qv & P1 & P2 & D & C1 & C2 & _).
    unfold pydiv in P1, P2. cbn in P1, P2. rewrite Req_bool_false in P1, P2 by lra. cbn in P1, P2.
    rewrite Req_bool_false in P1, P2 by lra.
    injection P1 as <-. injection P2 as <-.
    assert (M : forall a b, py_min (Fin a) (Fin b) = Fin (Rmin a b)).
    { intros a b. unfold py_min, Rmin. cbn. destruct (Rlt_bool_spec b a), (Rle_dec a b); f_equal; lra. }
    rewrite !M in *. cbn in C1, C2. split; [exact D|]. rewrite C1, C2. split; cbn [map]; fin_list; unfold acc; lra.
  Qed.

  Lemma rot2d_no_limiter (w : world xr) m inertia al vl iw aw vw n samples method jax x0 y0 th0 vx0 vy0 wz0 e :
    m <> 0 -> 0 < inertia -> rd 0 = 0 ->
    rot2d_spacecraft w (Fin m) (Fin inertia) (Fin al) (Fin vl) (Fin iw) (Fin aw) (Fin vw) (Fin n) samples method jax
      x0 y0 th0 vx0 vy0 wz0 = Ok e ->
    forall t x y th vx vy wz fx fy mz lo hi vel,
      bnth (e_cmin e) 2 = Some (Fin lo) -> bnth (e_cmax e) 2 = Some (Fin hi) -> lo <= mz <= hi ->
      bnth (d_max (e_dyn e)) 5 = Some (Fin vel) -> - vel < wz < vel ->
      exists sd, compute_state_dot (e_dyn e) t (A1 (map Fin [x; y; th; vx; vy; wz])) (A1 (map Fin [fx; fy; mz])) = Ok sd /\
        bnth sd 5 = Some (Fin (mz / inertia)).
  Proof.
    intros Hm Hi Z E t x y th vx vy wz fx fy mz lo hi vel Hlo Hhi Hmz Hv Hw.
    destruct (rot2d_limits _ _ _ _ _ _ _ _ _ _ _ _ _ _ _ _ _ _ _ Hi E) as (D & C1 & C2).
    destruct (rot2d_dyn_inv _ _ _ _ _ _ _ _ _ _ D) as (_ & D2 & _).
    rewrite D2 in Hv. cbn in Hv. injection Hv as <-. set (vel := Rmin vl _) in *.
    rewrite C1 in Hlo. rewrite C2 in Hhi. cbn in Hlo, Hhi. injection Hlo as <-. injection Hhi as <-.
    set (acc := Rmin al _) in *.
    eexists. split; [apply (rot2d_csd w m inertia acc vel n _ _ _ _ Hm (Rgt_not_eq _ _ Hi) D)|].
    cbn. do 2 f_equal. rewrite Z, Rplus_0_l, clipR_id.
    - unfold stopR. destruct (Rle_dec vel wz); [lra|]. destruct (Rle_dec wz (- vel)); [lra|reflexivity].
    - split; apply Rmult_le_reg_r with inertia; try lra; unfold Rdiv; rewrite Rmult_assoc, Rinv_l; lra.
  Qed.

  (** ** Whole turns *)
  Lemma rot2d_turn (w : world xr) m inertia acc vel n samples method jax d a b :
    rot2d_dyn w m inertia acc vel n samples method jax = Ok d -> same_angle a b ->
    forall t x y vx vy wz u,
      compute_state_dot d t (A1 [x; y; Fin a; vx; vy; wz]) u = compute_state_dot d t (A1 [x; y; Fin b; vx; vy; wz]) u.
  Proof.
    intros E S t x y vx vy wz u. destruct (turn_cos _ _ S) as [Ec Es].
    destruct (rot2d_dyn_inv _ _ _ _ _ _ _ _ _ _ E) as (D1 & D2 & _ & _ & _ & _ & _ & _ & A & B & G & Er).
    unfold compute_state_dot. 
    assert (R : d_raw d t (A1 [x; y; Fin a; vx; vy; wz]) u = d_raw d t (A1 [x; y; Fin b; vx; vy; wz]) u).
    { rewrite Er. unfold affine_raw. change (rot2d_f A (A1 [x; y; Fin a; vx; vy; wz])) with (rot2d_f A (A1 [x; y; Fin b; vx; vy; wz])).
      assert (Q : rot2d_g m inertia (A1 [x; y; Fin a; vx; vy; wz]) = rot2d_g m inertia (A1 [x; y; Fin b; vx; vy; wz])).
      { unfold rot2d_g. cbn [aidx nth_error bind]. cbn [ncos nsin XR xfun]. rewrite Ec, Es. reflexivity. }
      rewrite Q. reflexivity. }
    rewrite R. destruct (d_raw d t (A1 [x; y; Fin b; vx; vy; wz]) u) as [r|]; [|reflexivity]. cbn [bind].
    destruct (clip_state_dot_direct d r) as [r'|]; [|reflexivity]. cbn [bind].
    unfold clip_state_dot_by_state_limits. rewrite D1, D2. reflexivity.
  Qed.

  Lemma rot2d_shape (w : world xr) m inertia acc vel n samples method jax d :
    rot2d_dyn w m inertia acc vel n samples method jax = Ok d ->
    forall t x y th vx vy wz u r, compute_state_dot d t (A1 [x; y; th; vx; vy; wz]) u = Ok r ->
      exists sd, r = A1 sd /\ length sd = 6%nat.
  Proof.
    intros E t x y th vx vy wz u r H.
    destruct (rot2d_dyn_inv _ _ _ _ _ _ _ _ _ _ E) as (D1 & D2 & D3 & D4 & _ & _ & _ & _ & A & B & G & Er).
    destruct (d_raw d t (A1 [x; y; th; vx; vy; wz]) u) as [raw|] eqn:R.
    - assert (exists l, raw = A1 l /\ length l = 6%nat) as (l & -> & L).
      { revert R. rewrite Er. unfold affine_raw, rot2d_f.
        destruct (matvec A _) as [pv|]; [|discriminate]. cbn [bind].
        destruct (aidx pv 0), (aidx pv 1), (aidx pv 2), (aidx pv 3); try discriminate. cbn [bind].
        unfold rot2d_g. cbn [aidx nth_error bind]. destruct (pydiv _ _); [|discriminate]. cbn [bind].
        unfold matvec. destruct u as [|u]; [discriminate|]. destruct (forallb _ _); [|discriminate]. cbn [bind].
        cbn [map bmap2 length Nat.eqb zipw]. intros Q. injection Q as <-. eexists; split; reflexivity. }
      erewrite csd_list in H; [|..|exact R]; rewrite ?D1, ?D2, ?D3, ?D4; try reflexivity; try (exact L).
      destruct l as [|? [|? [|? [|? [|? [|? []]]]]]]; try discriminate.
      injection H as <-. rewrite D1, D2, D3, D4. eexists; split; reflexivity.
    - unfold compute_state_dot in H. rewrite R in H. discriminate.
  Qed.

  Lemma rot2d_turn_run (w : world xr) m inertia acc vel n samples jax e a b x y vx vy wz acts :
    rot2d_dyn w m inertia acc vel n samples "Euler" jax = Ok (e_dyn e) -> same_angle a b ->
    e_state e = A1 [x; y; Fin a; vx; vy; wz] -> acts <> [] ->
    run w (set_state e (A1 [x; y; Fin b; vx; vy; wz])) acts = run w e acts.
  Proof.
    intros E S Es Ne.
    destruct (rot2d_dyn_inv _ _ _ _ _ _ _ _ _ _ E) as (D1 & D2 & D3 & D4 & D5 & _ & D7 & _).
    eapply euler_same; try eassumption; try reflexivity.
    - intros t u. symmetry. apply (rot2d_turn w _ _ _ _ _ _ _ _ _ a b E S).
    - intros t u r. apply (rot2d_shape w _ _ _ _ _ _ _ _ _ E).
    - intros h sd L. destruct sd as [|? [|? [|? [|? [|? [|? []]]]]]]; try discriminate.
      cbn [map zipw clip_list wrap_list]. rewrite n0_Fin. cbn [nisnan XR xisnan nnan nninf npinf nadd nmul].
      rewrite (wrap_turn (fun x => Fin (rd x)) a b _ S). reflexivity.
  Qed.
End X.

Section L.
  Context {T : Type} {N : Num T} {O : NumOrd T} {P : NumNeg T}.

  Lemma py_min_le (a b : T) : nisnan a = false -> nisnan b = false ->
    nleb (py_min a b) a = true /\ nleb (py_min a b) b = true.
  Proof.
    intros Ha Hb. unfold py_min. destruct (nltb b a) eqn:E.
    - rewrite !leb_ltb, ltb_irrefl, (ltb_asym _ _ E) by auto. auto.
    - rewrite !leb_ltb, ltb_irrefl, E by auto. auto.
  Qed.
  Lemma py_min_0 (a b : T) : nleb n0 a = true -> nleb n0 b = true -> nleb n0 (py_min a b) = true.
  Proof. intros. unfold py_min. destruct (nltb b a); auto. Qed.
  Lemma leb_nan_r (a b : T) : nleb a b = true -> nisnan b = false.
  Proof. intros H. destruct (nisnan b) eqn:E; auto. rewrite nan_leb_r in H by auto. discriminate. Qed.
  Lemma neg_le_0 (a : T) : nleb n0 a = true -> nleb (nneg a) n0 = true.
  Proof. intros H. eapply leb_trans; [|apply leb_neg0]. rewrite leb_neg. exact H. Qed.
  Lemma ninf_le_pinf : nleb (nninf : T) npinf = true.
  Proof. apply leb_ninf, pinf_not_nan. Qed.

  (** |x| <= min(a, b) implies |x| <= a and |x| <= b. *)
  Lemma min_bound (a b x : T) : nleb n0 a = true -> nleb n0 b = true ->
    nleb (nneg (py_min a b)) x = true /\ nleb x (py_min a b) = true ->
    nleb (nneg a) x = true /\ nleb x a = true /\ nleb (nneg b) x = true /\ nleb x b = true.
  Proof.
    intros Ha Hb [H1 H2]. destruct (py_min_le a b (leb_nan_r _ _ Ha) (leb_nan_r _ _ Hb)) as [M1 M2].
    repeat split; eapply leb_trans; try eassumption; rewrite leb_neg; assumption.
  Qed.

  Lemma rot2d_rate_bounds (w : world T) m inertia al vl iw aw vw n samples method jax x y th vx vy wz e acts e' :
    rot2d_spacecraft w m inertia al vl iw aw vw n samples method jax x y th vx vy wz = Ok e ->
    acts <> [] -> run w e acts = Ok e' ->
    forall qa qv, pydiv (nmul iw aw) inertia = Ok qa -> pydiv (nmul iw vw) inertia = Ok qv ->
      nleb n0 al = true -> nleb n0 vl = true -> nleb n0 qa = true -> nleb n0 qv = true ->
      (forall r, bnth (e_state e') 5 = Some r -> nisnan r = true \/
        (nleb (nneg vl) r = true /\ nleb r vl = true /\ nleb (nneg qv) r = true /\ nleb r qv = true)) /\
      (forall r, bnth (e_sdot e') 5 = Some r -> nisnan r = true \/
        (nleb (nneg al) r = true /\ nleb r al = true /\ nleb (nneg qa) r = true /\ nleb r qa = true)).
  Proof.
    intros E Ne H qa qv P1 P2 A0' V0 QA QV.
    destruct (rot2d_craft_inv _ _ _ _ _ _ _ _ _ _ _ _ _ _ _ _ _ _ _ E) as (qa' & qv' & P1' & P2' & D & _).
    replace qa' with qa in * by congruence. replace qv' with qv in * by congruence.
    destruct (rot2d_dyn_inv _ _ _ _ _ _ _ _ _ _ D) as (D1 & D2 & D3 & D4 & D5 & _).
    split; intros r Hr.
    - assert (L : limits_ok (d_min (e_dyn e)) (d_max (e_dyn e))).
      { rewrite D1, D2. intros i l u Hl Hu.
        do 6 (destruct i as [|i]; [injection Hl as <-; injection Hu as <-;
          first [apply ninf_le_pinf | eapply leb_trans; [apply neg_le_0|]; apply py_min_0; assumption]|]).
        destruct i; discriminate. }
      destruct (run_limits w e acts e' Ne H L 5%nat r _ _ Hr ltac:(rewrite D1; reflexivity) ltac:(rewrite D2; reflexivity))
        as [Q|Q]; [|left; exact Q|right; apply min_bound; assumption].
      intros (c & cc & Hc & Hcc & Nn). rewrite D5 in Hc. injection Hc as <-. injection Hcc as <-.
      rewrite nan_isnan in Nn. discriminate.
    - destruct (run_sdot_limits w e acts e' Ne H 5%nat r _ _ _ _ Hr ltac:(rewrite D1; reflexivity) ltac:(rewrite D2; reflexivity)
        ltac:(rewrite D3; reflexivity) ltac:(rewrite D4; reflexivity)) as [Q|Q].
      + apply neg_le_0, py_min_0; assumption.
      + apply py_min_0; assumption.
      + left; exact Q.
      + right. apply min_bound; assumption.
  Qed.
End L.
