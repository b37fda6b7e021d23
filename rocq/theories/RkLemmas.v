(** Linear functionals under Runge-Kutta steps. *)
From Coq Require Import String List Bool Arith ZArith Lia Reals Lra.
From Flocq Require Import Core.Core.
From Verif Require Import PyBase Num Arr BaseModel Spec SpecBase XReal NumOrdLemmas ArrLemmas BaseLemmas
  BaseLemmas2 BaseLemmas3 BaseLemmas4 XTac SpecRk.
Import ListNotations.
Local Open Scope R_scope.

Fixpoint vdot (k s : list R) : R :=
  match k, s with a :: k', b :: s' => a * b + vdot k' s' | _, _ => 0 end.

Lemma vaxpy_len s c d : length (vaxpy s c d) = Nat.min (length s) (length d).
Proof. unfold vaxpy. revert d. induction s; destruct d; simpl; auto. Qed.

Lemma vdot_axpy k s c d : length s = length d -> vdot k (vaxpy s c d) = vdot k s + c * vdot k d.
Proof.
  revert s d. induction k as [|a k IH]; intros s d H; simpl; [lra|].
  destruct s, d; simpl in *; try discriminate; [lra|].
  change (zipw (fun a0 b => a0 + c * b) s d) with (vaxpy s c d). rewrite IH by lia. lra.
Qed.

Lemma Fin_inj_map a b : map Fin a = map Fin b -> a = b.
Proof.
  revert b. induction a; destruct b; simpl; try discriminate; auto.
  intros H. injection H as -> H. f_equal; auto.
Qed.

Lemma Ok_Fin_inj a b : Ok (A1 (map Fin a)) = Ok (A1 (map Fin b)) -> a = b.
Proof. intros H. injection H as H. apply Fin_inj_map; auto. Qed.

Section K.
  Variable f : xr -> arr xr -> res (arr xr).
  Variable n : nat.
  Variable k : list R.
  Variable kap : R.
  Hypothesis Hf : forall t q, length q = n ->
    exists d, length d = n /\ f (Fin t) (A1 (map Fin q)) = Ok (A1 (map Fin d)) /\ vdot k d = kap.

  Lemma rk_functional s0 tau s : length s0 = n -> rk_comb f s0 tau s ->
    length s = n /\ vdot k s = vdot k s0 + kap * tau.
  Proof.
    intros L0 H. induction H as [|tau s c t q d H IH Lq E]; [split; auto; lra|].
    destruct IH as [L IH]. destruct (Hf t q) as (d' & L' & E' & K); [congruence|].
    rewrite E' in E. injection E as E. apply Fin_inj_map in E. subst d'.
    split; [rewrite vaxpy_len; lia|]. rewrite vdot_axpy by lia. rewrite IH, K. lra.
  Qed.
  Lemma regular_f : regular f n.
  Proof. intros t q L. destruct (Hf t q L) as (d & ? & ? & _). eauto. Qed.
End K.

Section Step.
  Variable r32 : R -> xr.
  Local Hint Extern 0 (Num xr) => exact (XR r32) : typeclass_instances.

  Lemma clip1_none x : clip1 (Fin x) NInf PInf = Fin x.
  Proof. reflexivity. Qed.
  Lemma clip_none (l : list R) : np_clip (A1 (map Fin l)) no_min no_max = Ok (A1 (map Fin l)).
  Proof. unfold np_clip. simpl. rewrite !map_map. simpl. reflexivity. Qed.
  Lemma axpy_arr s h d : length s = length d ->
    bmap2 xadd (A1 (map Fin s)) (amap (xmul (Fin h)) (A1 (map Fin d))) = Ok (A1 (map Fin (vaxpy s h d))).
  Proof.
    intros L. simpl. rewrite !map_length, L, Nat.eqb_refl. do 2 f_equal. clear L.
    unfold vaxpy. revert d. induction s; destruct d; simpl; auto. f_equal; auto.
  Qed.

  Lemma bmap2_no_min s : bmap2 nleb (A1 (map Fin s)) no_min = Ok (A1 (map (fun _ => false) s)).
  Proof. simpl. rewrite map_map. simpl. reflexivity. Qed.
  Lemma bmap2_no_max s : bmap2 (fun x m => nleb m x) (A1 (map Fin s)) no_max = Ok (A1 (map (fun _ => false) s)).
  Proof. simpl. rewrite map_map. simpl. reflexivity. Qed.
  Lemma where_false (s : list R) (x y : list xr) : length x = length y -> length s = length y ->
    np_where (A1 (map (fun _ => false) s)) (A1 x) (A1 y) = Ok (A1 y).
  Proof.
    intros L1 L2. unfold np_where. simpl. rewrite L1, Nat.eqb_refl. simpl.
    rewrite map_length, zipw_length by auto. rewrite L1, L2, Nat.eqb_refl. do 2 f_equal.
    revert x y L1 L2. induction s as [|a s IH]; intros x [|b y] L1 L2; try discriminate; auto.
    destruct x; [discriminate|]. simpl. f_equal. apply IH; simpl in *; lia.
  Qed.

  (** Without limits the limited derivative is the raw one. *)
  Lemma csd_unlimited (d : dyn xr) t s u r :
    d_min d = no_min -> d_max d = no_max -> d_sdmin d = no_min -> d_sdmax d = no_max ->
    length s = length r -> d_raw d t (A1 (map Fin s)) u = Ok (A1 (map Fin r)) ->
    compute_state_dot d t (A1 (map Fin s)) u = Ok (A1 (map Fin r)).
  Proof.
    intros H1 H2 H3 H4 L E. unfold compute_state_dot. rewrite E. cbn [bind].
    unfold clip_state_dot_direct. rewrite H3, H4, clip_none. cbn [bind].
    unfold clip_state_dot_by_state_limits. rewrite H1, H2, bmap2_no_min, bmap2_no_max. cbn [bind].
    unfold np_clip. cbn [bmap2 bind]. rewrite !map_map. cbn [bind].
    rewrite where_false by (rewrite ?map_length; auto). cbn [bind].
    rewrite where_false by (rewrite ?map_length; auto). reflexivity.
  Qed.

  Lemma jax_times_fin h : exists ts, jax_times (Fin h) = map Fin ts /\ hd 0 ts = 0 /\
    exists ts', ts = ts' ++ [h].
  Proof.
    unfold jax_times, t_eval_points. cbn [seq map Nat.eqb].
    exists [0/1; 1*(h/10)+0; 2*(h/10)+0;3*(h/10)+0;4*(h/10)+0;5*(h/10)+0;6*(h/10)+0;7*(h/10)+0;8*(h/10)+0;9*(h/10)+0;h].
    split; [|split; [simpl; lra|]].
    - cbn. repeat xdec. cbn. repeat f_equal; try field.
    - exists [0/1; 1*(h/10)+0; 2*(h/10)+0;3*(h/10)+0;4*(h/10)+0;5*(h/10)+0;6*(h/10)+0;7*(h/10)+0;8*(h/10)+0;9*(h/10)+0].
      reflexivity.
  Qed.

  Lemma Forall2_last {A B} (P : A -> B -> Prop) (l : list A) m b : Forall2 P l (m ++ [b]) ->
    exists l' a, l = l' ++ [a] /\ P a b.
  Proof.
    intros H. apply Forall2_app_inv_r in H. destruct H as (l1 & l2 & _ & H & E).
    inversion H as [|x y lx ly Hxy Hrest]; subst. inversion Hrest; subst. eauto.
  Qed.

  Lemma t_eval_last h n : (0 < n)%nat -> last (t_eval_points (Fin h) n) NaN = Fin h.
  Proof.
    intros L. destruct n as [|n]; [lia|]. unfold t_eval_points. rewrite seq_S, map_app. cbn [map].
    rewrite last_last. replace (1 + n)%nat with (S n) by lia. rewrite Nat.eqb_refl. reflexivity.
  Qed.

  (** One successful step, any method: a functional whose value on the derivative is
      constantly [kap] grows by [kap] times the step size. *)
  Lemma step_functional (w : world xr) (e : entity xr) h a s k kap :
    d_method (e_dyn e) = "Euler"%string \/ rk_solver w /\ (kap = 0 \/ reaches_end w) ->
    d_min (e_dyn e) = no_min -> d_max (e_dyn e) = no_max ->
    d_sdmin (e_dyn e) = no_min -> d_sdmax (e_dyn e) = no_max -> d_wrap (e_dyn e) = None ->
    e_state e = A1 (map Fin s) ->
    (forall c c', decode_action w e a = Ok c -> np_clip c (e_cmin e) (e_cmax e) = Ok c' ->
       forall t q, length q = length s ->
       exists d, length d = length s /\
         d_raw (e_dyn e) (Fin t) (A1 (map Fin q)) c' = Ok (A1 (map Fin d)) /\ vdot k d = kap) ->
    o_res (entity_step w e (Fin h) a) = Ok tt ->
    exists s', e_state (o_entity (entity_step w e (Fin h) a)) = A1 (map Fin s') /\
      length s' = length s /\ vdot k s' = vdot k s + kap * h.
  Proof.
    intros RKE M1 M2 D1 D2 W Es F H.
    assert (F' : forall c c', decode_action w e a = Ok c -> np_clip c (e_cmin e) (e_cmax e) = Ok c' ->
       forall t q, length q = length s ->
       exists d, length d = length s /\
         compute_state_dot (e_dyn e) (Fin t) (A1 (map Fin q)) c' = Ok (A1 (map Fin d)) /\ vdot k d = kap).
    { intros c c' E1 E2 t q L. destruct (F c c' E1 E2 t q L) as (d & Ld & E & K).
      exists d. split; [auto|]. split; [|auto]. apply csd_unlimited; auto. congruence. }
    destruct (entity_step_ok _ _ _ _ H) as (c & c' & tr & Ec & Ec' & D & _).
    specialize (F c c' Ec Ec'). specialize (F' c c' Ec Ec').
    destruct (String.eqb_spec (d_method (e_dyn e)) "RK45") as [M|M];
      [|destruct (String.eqb_spec (d_method (e_dyn e)) "RK45_JAX") as [M'|M']].
    - destruct RKE as [Q|[[RK RJ] RE]]; [rewrite M in Q; discriminate|].
      destruct (rk45_step _ _ _ _ M H) as (c0 & c1 & te & sol & rows & q & m & E0 & E1 & Ete & So & Ro & _ & _ & Cl & Wr).
      assert (c0 = c) by congruence. subst c0. assert (c1 = c') by congruence. subst c1.
      rewrite Es in So. specialize (RK _ _ _ _ _ (regular_f _ _ _ _ F') So).
      destruct RE as [->|RE].
      + rewrite Ro in RK. destruct (Forall2_last _ _ _ _ RK) as (? & ? & _ & tau & q' & _ & -> & C).
        destruct (rk_functional _ _ _ _ F' _ _ _ eq_refl C) as [L K].
        rewrite M1, M2, clip_none in Cl. injection Cl as <-.
        unfold wrap_angles in Wr. rewrite W in Wr. injection Wr as <-. exists q'. repeat split; auto. lra.
      + assert (Lt : forall ts, te = Some ts -> last ts NaN = Fin h).
        { rewrite Ete. destruct (Z.ltb_spec 0 (d_samples (e_dyn e))); [|discriminate].
          intros ts Q. injection Q as <-. apply t_eval_last. lia. }
        specialize (RE _ _ _ _ _ (regular_f _ _ _ _ F') Lt So).
        rewrite Ro in RK. destruct (Forall2_last _ _ _ _ RK) as (l' & ? & El & tau & q' & -> & -> & C).
        destruct (rk_functional _ _ _ _ F' _ _ _ eq_refl C) as [L K].
        rewrite M1, M2, clip_none in Cl. injection Cl as <-.
        unfold wrap_angles in Wr. rewrite W in Wr. injection Wr as <-. exists q'. repeat split; auto.
        rewrite Ro in RE. assert (last (sol_t sol) NaN = Fin h) as Q by (apply RE; destruct rows; discriminate).
        rewrite El, last_last in Q. injection Q as <-. exact K.
    - destruct RKE as [Q|[[RK RJ] RE]]; [rewrite M' in Q; discriminate|].
      destruct (jax_step _ _ _ _ M' H) as (c0 & c1 & sol & rows & q & m & E0 & E1 & So & Ro & _ & Cl & Wr).
      assert (c0 = c) by congruence. subst c0. assert (c1 = c') by congruence. subst c1.
      destruct (jax_times_fin h) as (ts & Ets & H0 & ts' & Ets').
      rewrite Es, Ets in So.
      assert (Rg : regular (fun t x => d_raw (e_dyn e) t x c') (length s)) by exact (regular_f _ _ _ _ F).
      specialize (RJ _ _ _ _ Rg So). rewrite Ro in RJ.
      destruct (Forall2_last _ _ _ _ RJ) as (l' & a' & El & q' & -> & C).
      assert (a' = h) by (rewrite Ets' in El; apply app_inj_tail in El; symmetry; apply El). subst a'.
      rewrite H0, Rminus_0_r in C.
      destruct (rk_functional _ _ _ _ F _ _ _ eq_refl C) as [L K].
      rewrite M1, M2, clip_none in Cl. injection Cl as <-.
      unfold wrap_angles in Wr. rewrite W in Wr. injection Wr as <-. exists q'. auto.
    - destruct (dyn_step_inv _ _ _ _ _ _ _ _ _ D) as (nx & m & St & Cl & Wr).
      unfold dyn__step in St. rewrite (proj2 (String.eqb_neq _ _) M), (proj2 (String.eqb_neq _ _) M') in St.
      destruct (String.eqb (d_method (e_dyn e)) "Euler"); [|discriminate].
      injection St as _ St. destruct (py_assert _); [|discriminate]. cbn [bind] in St.
      rewrite Es in St. destruct (F' (0/1) s eq_refl) as (d & Ld & Ed & K).
      change (@n0 xr (XR r32)) with (Fin (0/1)) in St. rewrite Ed in St. cbn [bind] in St.
      change (@nadd xr (XR r32)) with xadd in St. change (@nmul xr (XR r32)) with xmul in St.
      rewrite axpy_arr in St by auto. cbn [bind] in St. injection St as <- _.
      rewrite M1, M2, clip_none in Cl. injection Cl as <-.
      unfold wrap_angles in Wr. rewrite W in Wr. injection Wr as <-.
      exists (vaxpy s h d). repeat split; [rewrite vaxpy_len; lia|]. rewrite vdot_axpy by auto. rewrite K. lra.
  Qed.

  (** Any run. *)
  Lemma run_functional (w : world xr) (e0 : entity xr) n k kap (P : action xr -> Prop) :
    d_method (e_dyn e0) = "Euler"%string \/ rk_solver w /\ (kap = 0 \/ reaches_end w) ->
    d_min (e_dyn e0) = no_min -> d_max (e_dyn e0) = no_max ->
    d_sdmin (e_dyn e0) = no_min -> d_sdmax (e_dyn e0) = no_max -> d_wrap (e_dyn e0) = None ->
    (forall a, P a -> forall c c', decode_action w e0 a = Ok c -> np_clip c (e_cmin e0) (e_cmax e0) = Ok c' ->
       forall t q, length q = n ->
       exists d, length d = n /\
         d_raw (e_dyn e0) (Fin t) (A1 (map Fin q)) c' = Ok (A1 (map Fin d)) /\ vdot k d = kap) ->
    forall acts e s e', same_config e e0 -> e_state e = A1 (map Fin s) -> length s = n ->
      Forall (fun p => P (snd p)) acts -> run w e (fin_acts acts) = Ok e' ->
      exists s', e_state e' = A1 (map Fin s') /\ length s' = n /\
        vdot k s' = vdot k s + kap * elapsed acts.
  Proof.
    intros RKE M1 M2 D1 D2 W F. induction acts as [|[h a] acts IH]; intros e s e' Cf Es L HP Hr.
    - injection Hr as <-. exists s. repeat split; auto. simpl. lra.
    - simpl in Hr. inversion HP as [|x y Pa Pr]; subst. simpl in Pa.
      destruct (o_res (entity_step w e (Fin h) a)) as [[]|] eqn:Eo; [|discriminate]. cbn [bind] in Hr.
      pose proof Cf as (C1 & C2 & C3 & C4 & C5).
      destruct (step_functional w e h a s k kap) as (s1 & Es1 & L1 & K1); auto; try congruence.
      { intros c c' E1 E2. rewrite C1. apply (F a Pa c); [|congruence].
        unfold decode_action in *. rewrite <- C2, <- C5. exact E1. }
      destruct (IH (o_entity (entity_step w e (Fin h) a)) s1 e') as (s2 & Es2 & L2 & K2); auto; try congruence.
      { eapply same_config_trans; [apply entity_step_config|exact Cf]. }
      exists s2. repeat split; auto. rewrite K2, K1. simpl. lra.
  Qed.

  (** ** Explicit Runge-Kutta methods are solvers in the sense of [rk_solver] *)
  Section E.
    Variable f : xr -> arr xr -> res (arr xr).
    Variable h : R.
    Variable s0 : list R.
    Hypothesis Rf : regular f (length s0).
    (** A slope: a value of f at a finite point. *)
    Definition slope (k : arr xr) : Prop := exists t q d, length q = length s0 /\ length d = length s0 /\
      f (Fin t) (A1 (map Fin q)) = Ok (A1 (map Fin d)) /\ k = A1 (map Fin d).
    Lemma erk_sum_comb cs : forall ks tau s, rk_comb f s0 tau s -> length s = length s0 -> Forall slope ks ->
      (length cs <= length ks)%nat ->
      exists s', erk_sum h (A1 (map Fin s)) cs ks = Ok (A1 (map Fin s')) /\ length s' = length s0 /\
        rk_comb f s0 (tau + h * fold_right Rplus 0 cs) s'.
    Proof.
      induction cs as [|c cs IH]; intros ks tau s C L S Lk.
      - exists s. simpl. repeat split; auto. rewrite Rmult_0_r, Rplus_0_r. auto.
      - destruct ks as [|k ks]; simpl in Lk; [lia|]. inversion S as [|x y Sk Sr]; subst.
        destruct Sk as (t & q & d & Lq & Ld & E & ->). cbn [erk_sum].
        rewrite axpy_arr by congruence. cbn [bind].
        assert (C1 : rk_comb f s0 (tau + h * c) (vaxpy s (h * c) d)) by exact (rk_add f s0 tau s (h * c) t q d C Lq E).
        assert (L1 : length (vaxpy s (h * c) d) = length s0) by (rewrite vaxpy_len; lia).
        destruct (IH ks _ _ C1 L1 Sr ltac:(lia)) as (s' & E' & L' & C').
        exists s'. repeat split; auto. simpl. replace (tau + h * (c + fold_right Rplus 0 cs)) with
          (tau + h * c + h * fold_right Rplus 0 cs) by ring. auto.
    Qed.
    Lemma erk_sum_fin cs : forall ks s, length s = length s0 -> Forall slope ks ->
      exists s', erk_sum h (A1 (map Fin s)) cs ks = Ok (A1 (map Fin s')) /\ length s' = length s0.
    Proof.
      induction cs as [|c cs IH]; intros ks s L S; [exists s; auto|].
      destruct ks as [|k ks]; [exists s; auto|]. inversion S as [|x y Sk Sr]; subst.
      destruct Sk as (t & q & d & Lq & Ld & E & ->). cbn [erk_sum]. rewrite axpy_arr by congruence. cbn [bind].
      apply IH; auto. rewrite vaxpy_len. lia.
    Qed.
    Lemma erk_slopes_ok st : forall ks, Forall slope ks ->
      exists ks', erk_slopes f h (A1 (map Fin s0)) st ks = Ok ks' /\ Forall slope ks' /\
        (length ks' = length ks + length st)%nat.
    Proof.
      induction st as [|[c a] st IH]; intros ks S; [exists ks; simpl; auto|].
      cbn [erk_slopes]. destruct (erk_sum_fin a ks s0 eq_refl S) as (q & E & L). rewrite E. cbn [bind].
      destruct (Rf (c * h) q L) as (d & Ld & Ed). rewrite Ed. cbn [bind].
      destruct (IH (ks ++ [A1 (map Fin d)])) as (ks' & E' & S' & L').
      { apply Forall_app. split; auto. constructor; auto. exists (c * h), q, d. auto. }
      exists ks'. rewrite E'. repeat split; auto. rewrite L', app_length. simpl. lia.
    Qed.
    Lemma erk_step_comb tb : consistent tb ->
      exists s', erk_step f h (A1 (map Fin s0)) tb = Ok (map Fin s') /\ rk_comb f s0 h s'.
    Proof.
      intros [Lw Sw]. unfold erk_step.
      destruct (erk_slopes_ok (tb_stages tb) []) as (ks & E & S & L); [constructor|]. rewrite E. cbn [bind].
      assert (Lk : (length (tb_weights tb) <= length ks)%nat) by (rewrite Lw, L; simpl; lia).
      destruct (erk_sum_comb (tb_weights tb) ks 0 s0 (rk_start f s0) eq_refl S Lk) as (s' & E' & _ & C).
      rewrite E'. cbn [bind]. exists s'. split; auto. rewrite Sw in C.
      replace h with (0 + h * 1) by ring. exact C.
    Qed.
  End E.

  Lemma erk_rows f s0 tb ts rows t0 : regular f (length s0) -> consistent tb ->
    mapM (fun t => erk_step f (real_of t - t0) (A1 (map Fin s0)) tb) ts = Ok rows ->
    Forall2 (fun t row => exists q, row = map Fin q /\ rk_comb f s0 (real_of t - t0) q) ts rows.
  Proof.
    intros Rf C. revert rows. induction ts as [|t ts IH]; intros rows H; simpl in H.
    - injection H as <-. constructor.
    - destruct (erk_step_comb f (real_of t - t0) s0 Rf tb C) as (s' & E & K). rewrite E in H. cbn [bind] in H.
      destruct (mapM _ ts) as [rs|]; [|discriminate]. cbn [bind] in H. injection H as <-.
      constructor; eauto.
  Qed.

  Lemma erk_rk_solver tb : consistent tb -> rk_solver (erk_world tb).
  Proof.
    intros C. split.
    - intros f h s te sol Rf E. unfold erk_world in E. cbn [w_solve_ivp] in E. cbv zeta in E.
      set (ts := match te with None => [Fin h] | Some ts => ts end) in *.
      destruct (mapM _ ts) as [rows|] eqn:Em; [|discriminate]. cbn [bind] in E. injection E as <-. cbn [sol_t sol_y].
      assert (Em' : mapM (fun t => erk_step f (real_of t - 0) (A1 (map Fin s)) tb) ts = Ok rows).
      { rewrite <- Em. clear. induction ts; simpl; auto. rewrite Rminus_0_r, IHts. reflexivity. }
      pose proof (erk_rows _ _ _ _ _ _ Rf C Em') as F. clear -F. clearbody ts.
      induction F as [|t row ts rows (q & -> & K) F IH]; constructor; auto.
      exists (real_of t), q. rewrite Rminus_0_r in K. auto.
    - intros f s ts sol Rf E. cbn [erk_world w_odeint] in E.
      pose proof (erk_rows _ _ _ _ _ _ Rf C E) as F.
      replace (real_of (hd (Fin 0) (map Fin ts))) with (hd 0 ts) in F by (destruct ts; reflexivity).
      clear -F. remember (hd 0 ts) as t0. clear Heqt0. revert sol F.
      induction ts as [|t ts IH]; intros sol F; inversion F as [|x y lx ly Hx Hr]; subst; constructor; auto.
  Qed.
  Lemma erk_reaches_end tb : reaches_end (erk_world tb).
  Proof.
    intros f h s te sol _ Lt E _. unfold erk_world in E. cbn [w_solve_ivp] in E. cbv zeta in E.
    destruct (mapM _ _) as [rows|]; [|discriminate]. cbn [bind] in E. injection E as <-. cbn [sol_t].
    destruct te as [ts|]; [|reflexivity]. specialize (Lt ts eq_refl).
    destruct (exists_last (l := ts)) as (l' & a & ->); [intros ->; discriminate|].
    rewrite last_last in Lt. rewrite map_app. cbn [map]. rewrite last_last, Lt. reflexivity.
  Qed.

  Lemma erk_step_succeeds tb (e : entity xr) h s l l' : consistent tb ->
    d_min (e_dyn e) = no_min -> d_max (e_dyn e) = no_max ->
    d_sdmin (e_dyn e) = no_min -> d_sdmax (e_dyn e) = no_max -> d_wrap (e_dyn e) = None ->
    d_method (e_dyn e) = "RK45"%string -> (d_samples (e_dyn e) <= 0)%Z ->
    e_state e = A1 (map Fin s) -> fits (e_cmin e) (A1 l) -> fits (e_cmax e) (A1 l) ->
    np_clip (A1 l) (e_cmin e) (e_cmax e) = Ok (A1 l') ->
    (forall t q, length q = length s -> exists d, length d = length s /\
       d_raw (e_dyn e) (Fin t) (A1 (map Fin q)) (A1 l') = Ok (A1 (map Fin d))) ->
    let o := entity_step (erk_world tb) e (Fin h) (AArr (A1 l)) in
    o_res o = Ok tt /\ exists s', length s' = length s /\ e_state (o_entity o) = A1 (map Fin s').
  Proof.
    intros Ct M1 M2 D1 D2 W Me Sa Es F1 F2 Cl Rg o. subst o. unfold entity_step. cbn [decode_action].
    destruct (out_of_bounds_spec (A1 l) _ _ F1 F2) as (b & Eb & _). rewrite Eb, Cl.
    unfold dyn_step, dyn__step. rewrite Me. cbn [String.eqb Ascii.eqb Bool.eqb].
    rewrite (proj2 (Z.ltb_ge _ _) Sa). rewrite Es. cbn [erk_world w_solve_ivp mapM real_of].
    assert (Rg' : regular (fun t x => compute_state_dot (e_dyn e) t x (A1 l')) (length s)).
    { intros t q L. destruct (Rg t q L) as (d & Ld & E). exists d. split; auto. apply csd_unlimited; auto. congruence. }
    destruct (erk_step_comb _ h s Rg' tb Ct) as (s' & E & K). cbv zeta. cbn [map mapM real_of].
    rewrite E. cbn [bind sol_y sol_t last_row rev app].
    assert (L' : length s' = length s).
    { clear -K Rg'. remember (length s) as n eqn:Hn. revert Hn. induction K as [|tau s1 c t q d K IH Lq Ed]; intros Hn; auto.
      rewrite vaxpy_len, IH by auto. destruct (Rg' t q ltac:(congruence)) as (d' & Ld & E').
      rewrite E' in Ed. apply Ok_Fin_inj in Ed. subst d'. lia. }
    destruct (Rg' h s' L') as (d & Ld & Ed). rewrite Ed. cbn [bind]. rewrite M1, M2, clip_none. cbn [bind].
    unfold wrap_angles. rewrite W. cbn [bind o_res o_entity with_step e_state]. split; [reflexivity|]. exists s'. auto.
  Qed.
End Step.
