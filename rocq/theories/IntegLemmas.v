(** Lemmas for the sun and the point-mass integrators. *)
From Coq Require Import String List Bool Arith ZArith Lia Reals Lra.
From Flocq Require Import Core.Core IEEE754.BinarySingleNaN.
From Verif Require Import PyBase Num Arr BaseModel Spec SpecBase XReal Float64 NumOrdLemmas ArrLemmas BaseLemmas
  BaseLemmas2 BaseLemmas3 BaseLemmas4 XTac Cwh SpecRk RkLemmas SpecCwh CwhLemmas Sun Integ SpecInteg.
Import ListNotations.
Local Open Scope R_scope.

Section A.
  Variable r32 : R -> xr.
  Local Hint Extern 0 (Num xr) => exact (XR r32) : typeclass_instances.

  (** ** Sun *)
  Lemma sun_entity_inv (w : world xr) n method uj theta e : sun_entity w (Fin n) method uj theta = Ok e ->
    d_min (e_dyn e) = no_min /\ d_max (e_dyn e) = no_max /\ d_sdmin (e_dyn e) = no_min /\ d_sdmax (e_dyn e) = no_max /\
    d_wrap (e_dyn e) = None /\ d_method (e_dyn e) = method /\ d_raw (e_dyn e) = sun_raw (Fin n) /\
    d_samples (e_dyn e) = 0%Z /\
    e_state e = A1 [nf32 theta] /\ e_cmin e = no_min /\ e_cmax e = no_max /\ e_default e = A1 [].
  Proof.
    unfold sun_entity, sun_dyn, mk_dyn. cbn [d_use_jax]. destruct (uj && negb (w_jax w)); [discriminate|].
    cbn [bind]. intros H; injection H as <-. repeat split.
  Qed.

  Lemma sun_run (w : world xr) n method uj theta th0 acts e e' :
    (method = "Euler"%string \/ rk_solver w /\ reaches_end w) ->
    sun_entity w (Fin n) method uj theta = Ok e ->
    run w (set_state e (A1 [Fin th0])) (fin_acts acts) = Ok e' ->
    sun_theta e' = Ok (Fin (th0 + n * elapsed acts)).
  Proof.
    intros M E Hr. destruct (sun_entity_inv _ _ _ _ _ _ E) as (H1 & H2 & H3 & H4 & H5 & H6 & H7 & _).
    destruct (run_functional r32 w e 1 [1] n (fun _ => True)
                ltac:(rewrite H6; destruct M as [?|[? ?]]; auto) H1 H2 H3 H4 H5) with
      (acts := acts) (e := set_state e (A1 [Fin th0])) (s := [th0]) (e' := e') as (s' & Es & L & K); auto.
    - intros a _ c c' _ _ t q Lq. exists [n]. rewrite H7. repeat split; auto. cbn. lra.
    - repeat split.
    - apply Forall_forall. auto.
    - destruct s' as [|a [|]]; try discriminate. unfold sun_theta. rewrite Es. cbn in K |- *.
      do 2 f_equal. lra.
  Qed.

  (** Euler steps without action always succeed. *)
  Lemma sun_total (w : world xr) n uj theta e hs :
    sun_entity w (Fin n) "Euler" uj theta = Ok e -> forall th0, exists e',
    run w (set_state e (A1 [Fin th0])) (fin_acts (map (fun h => (h, ANone)) hs)) = Ok e'.
  Proof.
    intros E. destruct (sun_entity_inv _ _ _ _ _ _ E) as (H1 & H2 & H3 & H4 & H5 & H6 & H7 & H8 & H9 & H10 & H11 & H12).
    assert (G : forall e1 th, same_config e1 e -> e_state e1 = A1 [Fin th] -> exists e',
       run w e1 (fin_acts (map (fun h => (h, ANone)) hs)) = Ok e').
    { induction hs as [|h hs IH]; intros e1 th Cf Es; [exists e1; reflexivity|].
      cbn [map fin_acts run fst snd].
      pose proof Cf as (C1 & C2 & C3 & C4 & C5).
      assert (St : exists th', o_res (entity_step w e1 (Fin h) ANone) = Ok tt /\
                 e_state (o_entity (entity_step w e1 (Fin h) ANone)) = A1 [Fin th']).
      { unfold entity_step. cbn [decode_action]. rewrite C2, C3, C4, H10, H11, H12. cbn [out_of_bounds bmap2 map bind any existsb no_min no_max].
        cbn [out_of_bounds bmap2 map bind any existsb no_min no_max np_clip].
        unfold dyn_step, dyn__step. rewrite C1, H6. cbn [String.eqb Ascii.eqb Bool.eqb]. rewrite H8. cbn [Z.leb Z.compare py_assert bind].
        rewrite Es. change (@n0 xr (XR r32)) with (Fin (0/1)).
        change (A1 [Fin th]) with (A1 (map Fin [th])).
        rewrite (csd_unlimited r32 (e_dyn e) (Fin (0/1)) [th] (A1 []) [n]); auto; [|rewrite H7; reflexivity].
        cbn [bind]. change (@nadd xr (XR r32)) with xadd. change (@nmul xr (XR r32)) with xmul.
        rewrite axpy_arr by auto. cbn [bind]. rewrite H1, H2, clip_none. cbn [bind].
        unfold wrap_angles. rewrite H5. cbn [bind]. eexists. split; reflexivity. }
      destruct St as (th' & R1 & R2). rewrite R1. cbn [bind].
      apply (IH _ th'); auto. eapply same_config_trans; [apply entity_step_config|exact Cf]. }
    intros th0. apply (G _ th0); [repeat split|reflexivity].
  Qed.

  (** ** Integrators *)
  Lemma integ_mode (m c : xr) mode samples method : (forall k, ~ offered mode k) ->
    integ_dyn m c mode samples method = Err AssertionError.
  Proof.
    intros H. unfold integ_dyn, generate_dynamics_matrices.
    destruct (String.eqb_spec mode "1d") as [->|]; [exfalso; apply (H 1%nat); left; auto|].
    destruct (String.eqb_spec mode "2d") as [->|]; [exfalso; apply (H 2%nat); right; left; auto|].
    destruct (String.eqb_spec mode "3d") as [->|]; [exfalso; apply (H 3%nat); right; right; auto|].
    reflexivity.
  Qed.
  Lemma integ_m0 (m c : xr) mode k samples method : offered mode k -> neqb m n0 = true ->
    integ_dyn m c mode samples method = Err ZeroDivisionError.
  Proof.
    intros [[-> _]|[[-> _]|[-> _]]] H; unfold integ_dyn, generate_dynamics_matrices, pydiv; rewrite H; reflexivity.
  Qed.
  Lemma len1 {A} (q : list A) : length q = 1%nat -> exists a, q = [a].
  Proof. destruct q as [|a [|]]; try discriminate. eauto. Qed.
  Lemma len2 {A} (q : list A) : length q = 2%nat -> exists a b, q = [a; b].
  Proof. destruct q as [|a [|b [|]]]; try discriminate. eauto. Qed.
  Lemma len3 {A} (q : list A) : length q = 3%nat -> exists a b c, q = [a; b; c].
  Proof. destruct q as [|a [|b [|c [|]]]]; try discriminate. eauto. Qed.

  Lemma integ_ok m c mode k samples method : m <> 0 -> offered mode k -> exists d,
    integ_dyn (Fin m) (Fin c) mode samples method = Ok d /\
    d_min d = no_min /\ d_max d = no_max /\ d_sdmin d = no_min /\ d_sdmax d = no_max /\
    d_wrap d = None /\ d_method d = method /\ d_samples d = samples /\
    forall t ps vs us, length ps = k -> length vs = k -> length us = k ->
      d_raw d t (point_state ps vs) (A1 (map Fin us)) =
      Ok (A1 (map Fin (vs ++ zipw (axis_accel m c) vs us))).
  Proof.
    intros Hm [[-> ->]|[[-> ->]|[-> ->]]]; unfold integ_dyn, generate_dynamics_matrices, pydiv, linear_dyn; cbn;
      rewrite (Req_bool_false m (0/1)) by lra; cbn; rewrite (Req_bool_false m 0) by lra; eexists; (split; [reflexivity|]);
      cbn; repeat (split; [reflexivity|]); intros t ps vs us L1 L2 L3.
    - destruct (len1 _ L1) as (? & ->), (len1 _ L2) as (? & ->), (len1 _ L3) as (? & ->). unfold axis_accel. cbn. fin_list; field; auto.
    - destruct (len2 _ L1) as (? & ? & ->), (len2 _ L2) as (? & ? & ->), (len2 _ L3) as (? & ? & ->). unfold axis_accel. cbn. fin_list; field; auto.
    - destruct (len3 _ L1) as (? & ? & ? & ->), (len3 _ L2) as (? & ? & ? & ->), (len3 _ L3) as (? & ? & ? & ->). unfold axis_accel. cbn. fin_list; field; auto.
  Qed.

  Lemma zipw_len {A B C} (f : A -> B -> C) l : forall m, length l = length m -> length (zipw f l m) = length l.
  Proof. induction l; intros [|b m] L; try discriminate; cbn; auto. Qed.

  Lemma integ_derivative m c mode k samples method d t ps vs us : m <> 0 -> offered mode k ->
    integ_dyn (Fin m) (Fin c) mode samples method = Ok d -> length ps = k -> length vs = k -> length us = k ->
    compute_state_dot d t (point_state ps vs) (A1 (map Fin us)) =
    Ok (A1 (map Fin (vs ++ zipw (axis_accel m c) vs us))).
  Proof.
    intros Hm Of E L1 L2 L3. destruct (integ_ok m c mode k samples method Hm Of) as (d' & E' & H1 & H2 & H3 & H4 & H5 & H6 & H7 & H8).
    assert (d' = d) by congruence. subst d'. unfold point_state in *.
    apply csd_unlimited; auto. rewrite !app_length, zipw_len; lia.
  Qed.

  (** *** Euler steps *)
  Definition plain_integ (m c : R) (mode : string) (k : nat) (samples : Z) (method : string) (e : entity xr) : Prop :=
    integ_dyn (Fin m) (Fin c) mode samples method = Ok (e_dyn e) /\
    e_cmin e = A0 (nZ (-1)) /\ e_cmax e = A0 n1 /\ e_default e = A1 (repeat n0 k).

  Lemma vaxpy_app h : forall a a' b b', length a = length a' -> vaxpy (a ++ b) h (a' ++ b') = vaxpy a h a' ++ vaxpy b h b'.
  Proof. induction a; intros [|] b b' L; try discriminate; cbn; auto. f_equal. apply IHa. cbn in L; lia. Qed.

  Lemma integ_euler (w : world xr) m c mode k samples e h ps vs us : m <> 0 -> offered mode k -> (samples <= 0)%Z ->
    plain_integ m c mode k samples "Euler" e ->
    length ps = k -> length vs = k -> length us = k -> Forall (fun u => -1 <= u <= 1) us ->
    e_state e = point_state ps vs ->
    let o := entity_step w e (Fin h) (AArr (A1 (map Fin us))) in
    o_res o = Ok tt /\
    e_state (o_entity o) = point_state (vaxpy ps h vs) (vaxpy vs h (zipw (axis_accel m c) vs us)).
  Proof.
    intros Hm Of Sa (E & C1 & C2 & C3) L1 L2 L3 Hu Es.
    destruct (integ_ok m c mode k samples "Euler" Hm Of) as (d' & E' & H1 & H2 & H3 & H4 & H5 & H6 & H7 & H8).
    assert (d' = e_dyn e) by congruence. subst d'.
    assert (Cl : np_clip (A1 (map Fin us)) (e_cmin e) (e_cmax e) = Ok (A1 (map Fin us))).
    { rewrite C1, C2. change (@nZ xr (XR r32) (-1)) with (Fin (-1/1)). change (@n1 xr (XR r32)) with (Fin (1/1)).
      rewrite np_clip_scalar. do 3 f_equal. clear - Hu. induction Hu; cbn; auto.
      rewrite IHHu. f_equal. apply clipR_id. lra. }
    edestruct (euler_exact r32 w e h (ps ++ vs) (map Fin us) (map Fin us)
                (vs ++ zipw (axis_accel m c) vs us)) as (R1 & R2 & _); auto.
    - rewrite H7. exact Sa.
    - rewrite C1. exact I.
    - rewrite C2. exact I.
    - exact (H8 _ ps vs us L1 L2 L3).
    - rewrite !app_length, zipw_len; lia.
    - split; [exact R1|]. cbv zeta. rewrite R2. unfold point_state. rewrite vaxpy_app by lia. reflexivity.
  Qed.

  Lemma no_thrust_step (w : world xr) e k h a : e_default e = A1 (repeat n0 k) -> no_thrust k a ->
    entity_step w e (Fin h) a = entity_step w e (Fin h) (AArr (A1 (map Fin (repeat 0 k)))).
  Proof.
    intros D [->| ->]; [|reflexivity]. unfold entity_step. cbn [decode_action]. rewrite D.
    assert (Q : repeat (@n0 xr (XR r32)) k = map Fin (repeat 0 k)).
    { clear. induction k; cbn; auto. f_equal; auto. change (Fin (0/1) = Fin 0). f_equal. lra. }
    rewrite Q. reflexivity.
  Qed.

  Lemma repeat_bound k : Forall (fun u => -1 <= u <= 1) (repeat 0 k).
  Proof. induction k; cbn; constructor; auto. lra. Qed.

  Lemma accel_zero m c h : forall vs, m <> 0 ->
    vaxpy vs h (zipw (axis_accel m c) vs (repeat 0 (length vs))) = map (Rmult (1 - c * h)) vs.
  Proof. induction vs; intros Hm; cbn; auto. f_equal; [|apply IHvs; auto]. unfold axis_accel. field. auto. Qed.

  (** Free motion: each velocity is multiplied by (1 - c h) in every step. *)
  Lemma integ_free (w : world xr) m c mode k samples acts : m <> 0 -> offered mode k -> (samples <= 0)%Z ->
    Forall (fun p : R * action xr => no_thrust k (snd p)) acts ->
    forall e ps vs, plain_integ m c mode k samples "Euler" e ->
    length ps = k -> length vs = k -> e_state e = point_state ps vs ->
    exists e' ps', run w e (fin_acts acts) = Ok e' /\ length ps' = k /\
      e_state e' = point_state ps' (map (Rmult (fold_right (fun p x => (1 - c * fst p) * x) 1 acts)) vs).
  Proof.
    intros Hm Of Sa. induction acts as [|[h a] acts IH]; intros HP e ps vs Pl L1 L2 Es.
    - exists e, ps. repeat split; auto. cbn. rewrite Es. f_equal. clear. induction vs; cbn; auto. f_equal; auto. lra.
    - inversion HP as [|? ? Ha HP']; subst. cbn [snd] in Ha. pose proof Pl as (E & C1 & C2 & C3).
      cbn [fin_acts map run fst snd]. rewrite (no_thrust_step w e (length ps) h a C3 Ha).
      destruct (integ_euler w m c mode (length ps) samples e h ps vs (repeat 0 (length ps)) Hm Of Sa Pl eq_refl L2
                  (repeat_length _ _) (repeat_bound _) Es) as (R1 & R2).
      rewrite R1. cbn [bind].
      pose proof (entity_step_config w e (Fin h) (AArr (A1 (map Fin (repeat 0 (length ps)))))) as (F1 & F2 & F3 & F4 & F5).
      rewrite <- L2, accel_zero in R2 by auto.
      destruct (IH HP' (o_entity (entity_step w e (Fin h) (AArr (A1 (map Fin (repeat 0 (length ps)))))))
                  (vaxpy ps h vs) (map (Rmult (1 - c * h)) vs)) as (e' & ps' & Rn & L & Q).
      + repeat split; congruence.
      + rewrite vaxpy_len. lia.
      + rewrite map_length. auto.
      + rewrite <- R2. rewrite L2. reflexivity.
      + exists e', ps'. split; [exact Rn|]. split; [exact L|]. rewrite Q. f_equal. rewrite map_map. apply map_ext.
        intros x. cbn [fold_right fst]. ring.
  Qed.

  Lemma decay_bound c acts : (forall p, In p acts -> 0 <= c * fst p <= 2) ->
    Rabs (fold_right (fun (p : R * action xr) x => (1 - c * fst p) * x) 1 acts) <= 1.
  Proof.
    induction acts as [|[h a] acts IH]; intros H; cbn; [rewrite Rabs_R1; lra|].
    rewrite Rabs_mult. apply (Rle_trans _ (1 * 1)); [|lra].
    apply Rmult_le_compat; try apply Rabs_pos; [|apply IH; intros; apply H; right; auto].
    apply Rabs_le. specialize (H (h, a) (or_introl eq_refl)). cbn in H. lra.
  Qed.

  Lemma integ_damped (w : world xr) m c mode k samples acts e ps vs : m <> 0 -> offered mode k -> (samples <= 0)%Z ->
    Forall (fun p : R * action xr => no_thrust k (snd p)) acts ->
    (forall p, In p acts -> 0 <= c * fst p <= 2) ->
    plain_integ m c mode k samples "Euler" e ->
    length ps = k -> length vs = k -> e_state e = point_state ps vs ->
    exists e' ps' vs', run w e (fin_acts acts) = Ok e' /\ e_state e' = point_state ps' vs' /\
      length ps' = k /\ no_faster vs' vs.
  Proof.
    intros Hm Of Sa HP Hc Pl L1 L2 Es.
    destruct (integ_free w m c mode k samples acts Hm Of Sa HP e ps vs Pl L1 L2 Es) as (e' & ps' & Rn & L & Q).
    eexists e', ps', _. split; [exact Rn|]. split; [exact Q|]. split; auto.
    pose proof (decay_bound c acts Hc) as B. revert B. generalize (fold_right (fun (p : R * action xr) x => (1 - c * fst p) * x) 1 acts).
    intros q B. clear - B. induction vs; cbn; constructor; auto. rewrite Rabs_mult.
    rewrite <- (Rmult_1_l (Rabs a)) at 2. apply Rmult_le_compat_r; [apply Rabs_pos|exact B].
  Qed.

  (** *** Any method: without thrust and damping the velocity is constant. *)
  Lemma vdot_unit k : forall i (l : list R), (i < k)%nat -> length l = k ->
    vdot (map (fun j => if Nat.eqb j i then 1 else 0) (seq 0 k)) l = nth i l 0.
  Proof.
    intros i l Hi L. 
    assert (G : forall (l : list R) s, vdot (map (fun j => if Nat.eqb j i then 1 else 0) (seq s (length l))) l =
              if (s <=? i)%nat && (i <? s + length l)%nat then nth (i - s) l 0 else 0).
    { clear. induction l as [|x l IH]; intros s; cbn [length seq map vdot].
      - replace (i <? s + 0)%nat with (i <? s)%nat by (f_equal; lia).
        destruct (Nat.leb_spec s i), (Nat.ltb_spec i s); cbn; auto; lia.
      - rewrite IH. destruct (Nat.eqb_spec s i).
        + subst. replace (i <=? i)%nat with true by (symmetry; apply Nat.leb_le; lia).
          replace (S i <=? i)%nat with false by (symmetry; apply Nat.leb_gt; lia).
          replace (i <? i + S (length l))%nat with true by (symmetry; apply Nat.ltb_lt; lia).
          cbn. rewrite Nat.sub_diag. lra.
        + replace (i <? s + S (length l))%nat with (i <? S s + length l)%nat by (f_equal; lia).
          destruct (Nat.leb_spec s i), (Nat.leb_spec (S s) i); cbn [andb]; try lia; [|lra].
          destruct (Nat.ltb_spec i (S s + length l)); [|lra].
          destruct (i - s)%nat as [|q] eqn:Q; [lia|]. replace (i - S s)%nat with q by lia. cbn [nth]. lra. }
    subst k. rewrite G. replace (0 <=? i)%nat with true by (symmetry; apply Nat.leb_le; lia).
    replace (i <? 0 + length l)%nat with true by (symmetry; apply Nat.ltb_lt; lia). cbn. rewrite Nat.sub_0_r. reflexivity.
  Qed.

  Lemma no_thrust_decode (w : world xr) e k a c0 c' : e_default e = A1 (repeat n0 k) ->
    e_cmin e = A0 (nZ (-1)) -> e_cmax e = A0 n1 ->
    no_thrust k a -> decode_action w e a = Ok c0 -> np_clip c0 (e_cmin e) (e_cmax e) = Ok c' ->
    c' = A1 (map Fin (repeat 0 k)).
  Proof.
    intros D C1 C2 Ha Dc Cl.
    assert (Q : repeat (@n0 xr (XR r32)) k = map Fin (repeat 0 k)).
    { clear. induction k; cbn; auto. f_equal; auto. change (Fin (0/1) = Fin 0). f_equal. lra. }
    assert (c0 = A1 (map Fin (repeat 0 k))).
    { destruct Ha as [->| ->]; cbn in Dc; [rewrite D, Q in Dc|]; congruence. }
    subst c0. rewrite C1, C2 in Cl. change (@nZ xr (XR r32) (-1)) with (Fin (-1/1)) in Cl.
    change (@n1 xr (XR r32)) with (Fin (1/1)) in Cl. rewrite np_clip_scalar in Cl. injection Cl as <-.
    do 2 f_equal. clear. induction k; cbn; auto. f_equal; auto. apply clipR_id. lra.
  Qed.

  Lemma nth_ext0 : forall l l' : list R, length l = length l' -> (forall i, (i < length l)%nat -> nth i l 0 = nth i l' 0) -> l = l'.
  Proof. intros. apply (nth_ext _ _ 0 0); auto. Qed.

  Lemma integ_coast (w : world xr) m mode k samples method acts e e' ps vs : m <> 0 -> offered mode k ->
    method = "Euler"%string \/ rk_solver w ->
    Forall (fun p : R * action xr => no_thrust k (snd p)) acts ->
    plain_integ m 0 mode k samples method e ->
    length ps = k -> length vs = k -> e_state e = point_state ps vs ->
    run w e (fin_acts acts) = Ok e' ->
    exists ps', e_state e' = point_state ps' vs /\ length ps' = k.
  Proof.
    intros Hm Of Me HP (E & C1 & C2 & C3) L1 L2 Es Hr.
    destruct (integ_ok m 0 mode k samples method Hm Of) as (d' & E' & H1 & H2 & H3 & H4 & H5 & H6 & H7 & H8).
    assert (d' = e_dyn e) by congruence. subst d'.
    assert (Fn : forall i, (i < k)%nat -> exists s', e_state e' = A1 (map Fin s') /\ length s' = (k + k)%nat /\
               nth (k + i) s' 0 = nth i vs 0).
    { intros i Hi.
      destruct (run_functional r32 w e (k + k) (map (fun j => if Nat.eqb j (k + i) then 1 else 0) (seq 0 (k + k))) 0
                  (no_thrust k) ltac:(rewrite H6; destruct Me; auto) H1 H2 H3 H4 H5) with
        (acts := acts) (e := e) (s := ps ++ vs) (e' := e') as (s' & Q1 & Q2 & Q3); auto.
      - intros a Ha c0 c' Dc Cl t q Lq.
        rewrite (no_thrust_decode w e k a c0 c' C3 C1 C2 Ha Dc Cl).
        rewrite <- (firstn_skipn k q).
        assert (Lf : length (firstn k q) = k) by (rewrite firstn_length; lia).
        assert (Ls : length (skipn k q) = k) by (rewrite skipn_length; lia).
        change (A1 (map Fin (firstn k q ++ skipn k q))) with (point_state (firstn k q) (skipn k q)).
        rewrite H8 by (auto; apply repeat_length). eexists. repeat split.
        + rewrite app_length, zipw_len; rewrite ?repeat_length; lia.
        + rewrite vdot_unit; [|lia|rewrite app_length, zipw_len; rewrite ?repeat_length; lia].
          rewrite app_nth2 by lia. rewrite Ls. replace (k + i - k)%nat with i by lia.
          clear - Ls Hm. revert i. remember (skipn k q) as l. clear Heql.
          assert (G : forall (l : list R) k i, length l = k -> nth i (zipw (axis_accel m 0) l (repeat 0 k)) 0 = 0).
          { clear - Hm. induction l; intros [|k] i L; try discriminate; destruct i; cbn; auto.
            unfold axis_accel. field. auto. }
          intros i. apply G; auto.
      - repeat split.
      - rewrite app_length; lia.
      - exists s'. repeat split; auto.
        rewrite !vdot_unit in Q3 by (rewrite ?app_length; lia).
        rewrite (app_nth2 ps) in Q3 by lia. rewrite L1 in Q3. replace (k + i - k)%nat with i in Q3 by lia. lra. }
    assert (K : (0 < k)%nat) by (destruct Of as [[_ ->]|[[_ ->]|[_ ->]]]; lia).
    destruct (Fn 0%nat K) as (s0 & Q1 & Q2 & _).
    exists (firstn k s0). split; [|rewrite firstn_length; lia].
    rewrite Q1. unfold point_state. do 2 f_equal. rewrite <- (firstn_skipn k s0) at 1. f_equal.
    apply nth_ext0; [rewrite skipn_length; lia|]. intros i Hi. rewrite skipn_length in Hi.
    destruct (Fn i ltac:(lia)) as (s1 & P1 & _ & P3). rewrite <- P3.
    assert (s0 = s1) by (apply Fin_inj_map; congruence). subst s1.
    rewrite <- (firstn_skipn k s0) at 2. rewrite app_nth2; rewrite firstn_length; [|lia]. f_equal. lia.
  Qed.

  (** The constructors' bodies give such entities. *)
  Lemma bodies_plain m c samples method : m <> 0 ->
    (forall x vx e, integrator1d_body (Fin m) (Fin c) samples method x vx = Ok e -> plain_integ m c "1d" 1 samples method e) /\
    (forall x y vx vy e, integrator2d_body (Fin m) (Fin c) samples method x y vx vy = Ok e -> plain_integ m c "2d" 2 samples method e) /\
    (forall x y z vx vy vz e, integrator3d_body (Fin m) (Fin c) samples method x y z vx vy vz = Ok e -> plain_integ m c "3d" 3 samples method e).
  Proof.
    intros Hm. repeat split; intros; unfold integrator1d_body, integrator2d_body, integrator3d_body in *;
      destruct (integ_dyn _ _ _ _ _) as [d|] eqn:E; try discriminate; cbn [bind] in *;
      match goal with H : Ok _ = Ok _ |- _ => injection H as <- end; cbn; auto.
  Qed.
End A.
