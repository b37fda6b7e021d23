(** Derivative limits pointwise, reported derivative, sampling, wrong-length actions,
    limits together with wrapping. *)
From Coq Require Import String List Bool Arith ZArith Lia Reals Lra.
From Flocq Require Import Core.Core IEEE754.BinarySingleNaN.
From Verif Require Import PyBase Num Arr BaseModel Spec SpecBase XReal Float64 NumOrdLemmas ArrLemmas
  BaseLemmas BaseLemmas2 BaseLemmas3 WrapLemmas F64Wrap.
Import ListNotations.

Section G.
  Context {T : Type} {N : Num T} {O : NumOrd T}.

  Lemma derivative_limits (d : dyn T) t s u r raw :
    compute_state_dot d t s u = Ok r -> d_raw d t s u = Ok raw ->
    forall i y x ri lo hi slo shi, bnth r i = Some y ->
      bnth s i = Some x -> bnth raw i = Some ri -> bnth (d_min d) i = Some lo ->
      bnth (d_max d) i = Some hi -> bnth (d_sdmin d) i = Some slo -> bnth (d_sdmax d) i = Some shi ->
      (nleb hi x = true -> nisnan y = true \/ nleb y n0 = true) /\
      (nleb x lo = true -> nleb hi x = false -> nisnan y = true \/ nleb n0 y = true) /\
      (nleb slo n0 = true -> nleb n0 shi = true ->
         nisnan y = true \/ (nleb slo y = true /\ nleb y shi = true)) /\
      (nleb slo ri = true -> nleb ri shi = true ->
         (nleb x lo = true -> nleb n0 ri = true) -> (nleb hi x = true -> nleb ri n0 = true) ->
         neqb y ri = true).
  Proof.
    intros H Hr i y x ri lo hi slo shi Hy Hx Hri Hlo Hhi Hslo Hshi.
    destruct (compute_state_dot_at _ _ _ _ _ H) as (raw' & Er & At).
    assert (raw' = raw) by congruence. subst raw'.
    destruct (At i y Hy) as (x' & r' & lo' & hi' & slo' & shi' & A1' & A2 & A3 & A4 & A5 & A6 & E).
    rewrite Hx in A1'. rewrite Hri in A2. rewrite Hlo in A3. rewrite Hhi in A4.
    rewrite Hslo in A5. rewrite Hshi in A6.
    injection A1' as <-. injection A2 as <-. injection A3 as <-. injection A4 as <-.
    injection A5 as <-. injection A6 as <-. subst y.
    split; [apply limited_upper|]. split; [apply limited_lower|]. split; [apply limited_range|].
    apply limited_same.
  Qed.

  (** ** Reported derivative and trajectory of an RK45 step *)
  Lemma last_row_app (l : list (list T)) (r : arr T) : last_row l = Ok r ->
    exists l' q, l = l' ++ [q] /\ r = A1 q.
  Proof.
    unfold last_row. destruct (rev l) as [|q m] eqn:E; [discriminate|].
    intros H. injection H as <-. exists (rev m), q. split; [|reflexivity].
    rewrite <- (rev_involutive l), E. simpl. reflexivity.
  Qed.

  Lemma rk45_step (w : world T) e h a :
    d_method (e_dyn e) = "RK45"%string ->
    o_res (entity_step w e h a) = Ok tt ->
    exists c c' te sol rows q m,
      decode_action w e a = Ok c /\ np_clip c (e_cmin e) (e_cmax e) = Ok c' /\
      te = (if (0 <? d_samples (e_dyn e))%Z
            then Some (t_eval_points h (Z.to_nat (d_samples (e_dyn e)))) else None) /\
      w_solve_ivp w (fun t x => compute_state_dot (e_dyn e) t x c') h (e_state e) te = Ok sol /\
      sol_y sol = rows ++ [q] /\
      e_traj (o_entity (entity_step w e h a)) = Some (sol_y sol, sol_t sol) /\
      compute_state_dot (e_dyn e) h (A1 q) c' = Ok (e_sdot (o_entity (entity_step w e h a))) /\
      np_clip (A1 q) (d_min (e_dyn e)) (d_max (e_dyn e)) = Ok m /\
      wrap_angles (e_dyn e) m = Ok (e_state (o_entity (entity_step w e h a))).
  Proof.
    intros M H. destruct (entity_step_ok _ _ _ _ H) as (c & c' & tr & Ec & Ec' & D & Tr).
    destruct (dyn_step_inv _ _ _ _ _ _ _ _ _ D) as (n & m & St & Cl & Wr).
    unfold dyn__step in St. rewrite M in St. simpl in St.
    set (te := if (0 <? d_samples (e_dyn e))%Z
               then Some (t_eval_points h (Z.to_nat (d_samples (e_dyn e)))) else None) in *.
    destruct (w_solve_ivp w _ h (e_state e) te) as [sol|] eqn:Es; [|discriminate].
    destruct (sol_y sol) as [|y0 ys] eqn:Ey; [discriminate|]. rewrite <- Ey in *.
    injection St as Etr St.
    destruct (last_row (sol_y sol)) as [nx|] eqn:En; [|discriminate]. simpl in St.
    destruct (compute_state_dot (e_dyn e) h nx c') as [sd|] eqn:Esd; [|discriminate]. simpl in St.
    injection St as -> Esd'. destruct (last_row_app _ _ En) as (rows & q & Er & ->).
    exists c, c', te, sol, rows, q, m. repeat split; auto; congruence.
  Qed.

  Lemma jax_step (w : world T) e h a :
    d_method (e_dyn e) = "RK45_JAX"%string ->
    o_res (entity_step w e h a) = Ok tt ->
    exists c c' sol rows q m,
      decode_action w e a = Ok c /\ np_clip c (e_cmin e) (e_cmax e) = Ok c' /\
      w_odeint w (fun x t => d_raw (e_dyn e) t x c') (e_state e) (jax_times h) = Ok sol /\
      sol = rows ++ [q] /\
      compute_state_dot (e_dyn e) h (A1 q) c' = Ok (e_sdot (o_entity (entity_step w e h a))) /\
      np_clip (A1 q) (d_min (e_dyn e)) (d_max (e_dyn e)) = Ok m /\
      wrap_angles (e_dyn e) m = Ok (e_state (o_entity (entity_step w e h a))).
  Proof.
    intros M H. destruct (entity_step_ok _ _ _ _ H) as (c & c' & tr & Ec & Ec' & D & Tr).
    destruct (dyn_step_inv _ _ _ _ _ _ _ _ _ D) as (n & m & St & Cl & Wr).
    unfold dyn__step in St. rewrite M in St. simpl in St. injection St as _ St.
    destruct (negb (d_use_jax (e_dyn e))); [discriminate|].
    destruct (py_assert _); [|discriminate]. cbn [bind] in St.
    destruct (w_odeint w _ _ _) as [sol|] eqn:Es; [|discriminate]. cbn [bind] in St.
    destruct (last_row sol) as [nx|] eqn:En; [|discriminate]. simpl in St.
    destruct (compute_state_dot (e_dyn e) h nx c') as [sd|] eqn:Esd; [|discriminate]. simpl in St.
    injection St as -> Esd'. destruct (last_row_app _ _ En) as (rows & q & Er & ->).
    exists c, c', sol, rows, q, m. repeat split; auto; congruence.
  Qed.

  (** ** Wrong-length actions *)
  Definition lim_dim (n : nat) (lim : arr T) : Prop :=
    match lim with A0 _ => True | A1 m => length m = n end.

  Lemma bmap2_len (f : T -> T -> T) l lim n r :
    lim_dim n lim -> (length l <> 1 \/ exists x, lim = A0 x) -> bmap2 f (A1 l) lim = Ok r ->
    exists l', r = A1 l' /\ length l' = length l.
  Proof.
    intros D Q. destruct lim as [y|m]; cbn [bmap2].
    - intros H. injection H as <-. exists (map (fun x => f x y) l). rewrite map_length. auto.
    - assert (Hl : length l <> 1) by (destruct Q as [Q|[x Q]]; [exact Q|discriminate]).
      destruct (Nat.eqb_spec (length l) (length m)) as [E|E].
      + intros H. injection H as <-. eexists. split; [reflexivity|]. apply zipw_length, E.
      + destruct l as [|x [|x' l]]; [|simpl in Hl; congruence|].
        * destruct m as [|y [|]]; try discriminate. intros H. injection H as <-. exists []. auto.
        * destruct m as [|y [|y' m]]; try discriminate. intros H.
          assert (E' : r = A1 (map (fun x => f x y) (x :: x' :: l))) by congruence.
          exists (map (fun x => f x y) (x :: x' :: l)). rewrite map_length. auto.
  Qed.

  (** A solver that evaluates the derivative at the initial state and lets its
      exception propagate, as scipy and jax do. *)
  Definition honest_solver (w : world T) : Prop :=
    (forall f h s te x, f n0 s = Err x -> w_solve_ivp w f h s te = Err x) /\
    (forall f s ts x, f s n0 = Err x -> w_odeint w f s ts = Err x).

  Lemma wrong_length (w : world T) e h l n :
    honest_solver w ->
    (forall t s q, length q <> n -> exists x, d_raw (e_dyn e) t s (A1 q) = Err x) ->
    lim_dim n (e_cmin e) -> lim_dim n (e_cmax e) ->
    length l <> n ->
    (length l <> 1 \/ (exists x y, e_cmin e = A0 x /\ e_cmax e = A0 y)) ->
    (exists x, o_res (entity_step w e h (AArr (A1 l))) = Err x) /\
    e_state (o_entity (entity_step w e h (AArr (A1 l)))) = e_state e.
  Proof.
    intros [Hs Ho] Raw D1 D2 Hn Q.
    assert (Q1 : length l <> 1 \/ exists x, e_cmin e = A0 x) by (destruct Q as [Q|(x & y & A & B)]; eauto).
    assert (Q2 : forall l' : list T, length l' = length l -> length l' <> 1 \/ exists x, e_cmax e = A0 x).
    { intros l' E. rewrite E. destruct Q as [Q|(x & y & A & B)]; eauto. }
    assert (R : exists x, o_res (entity_step w e h (AArr (A1 l))) = Err x).
    { unfold entity_step. cbn [decode_action].
      destruct (out_of_bounds (A1 l) (e_cmin e) (e_cmax e)) as [b|]; [|eexists; reflexivity].
      destruct (np_clip (A1 l) (e_cmin e) (e_cmax e)) as [c'|] eqn:Ec; [|eexists; reflexivity].
      assert (Lc : exists l', c' = A1 l' /\ length l' = length l).
      { unfold np_clip, bind in Ec. destruct (bmap2 np_max_clip (A1 l) (e_cmin e)) as [m|] eqn:Em; [|discriminate].
        destruct (bmap2_len _ _ _ n _ D1 Q1 Em) as (l1 & -> & L1).
        destruct (bmap2_len _ _ _ n _ D2 (Q2 _ L1) Ec) as (l2 & -> & L2).
        exists l2. split; [reflexivity|congruence]. }
      destruct Lc as (l' & -> & L').
      assert (Raw' : forall t s, exists x, d_raw (e_dyn e) t s (A1 l') = Err x) by (intros; apply Raw; congruence).
      assert (C : forall t s, exists x, compute_state_dot (e_dyn e) t s (A1 l') = Err x).
      { intros t s. destruct (Raw' t s) as [x E]. exists x. unfold compute_state_dot. rewrite E. reflexivity. }
      unfold dyn_step, dyn__step.
      destruct (String.eqb (d_method (e_dyn e)) "RK45").
      - destruct (C n0 (e_state e)) as [x E]. rewrite (Hs _ _ _ _ x E). eexists; reflexivity.
      - destruct (String.eqb (d_method (e_dyn e)) "RK45_JAX").
        + destruct (negb (d_use_jax (e_dyn e))); [eexists; reflexivity|].
          destruct (py_assert _); [|eexists; reflexivity]. cbn [bind].
          destruct (Raw' n0 (e_state e)) as [x E].
          rewrite (Ho (fun x t => compute_state_dot_jax (e_dyn e) x t (A1 l')) _ _ x E). eexists; reflexivity.
        + destruct (String.eqb (d_method (e_dyn e)) "Euler"); [|eexists; reflexivity].
          destruct (py_assert _); [|eexists; reflexivity]. cbn [bind].
          destruct (C n0 (e_state e)) as [x E]. rewrite E. eexists; reflexivity. }
    split; [exact R|]. destruct R as [x R]. eapply entity_step_err. exact R.
  Qed.

  Lemma affine_rejects (f : arr T -> res (arr T)) (g : arr T -> res (list (list T))) n :
    (forall s M, g s = Ok M -> M <> [] /\ forall r, In r M -> length r = n) ->
    forall t s q, length q <> n -> exists x, affine_raw f g t s (A1 q) = Err x.
  Proof.
    intros G t s q Hq. unfold affine_raw. destruct (f s); [|eexists; reflexivity]. cbn [bind].
    destruct (g s) as [M|] eqn:E; [|eexists; reflexivity]. cbn [bind].
    destruct (G s M E) as [Ne Rows]. unfold matvec.
    destruct (forallb (fun r => Nat.eqb (length r) (length q)) M) eqn:Fb; [|eexists; reflexivity].
    exfalso. destruct M as [|r M]; [congruence|]. simpl in Fb. apply andb_prop in Fb. destruct Fb as [Fb _].
    apply Nat.eqb_eq in Fb. rewrite (Rows r (or_introl eq_refl)) in Fb. congruence.
  Qed.
End G.

(** ** Sample times over exact reals *)
Section Samples.
  Variable r32 : R -> xr.
  Local Hint Extern 0 (Num xr) => exact (XR r32) : typeclass_instances.
  Local Open Scope R_scope.

  (** Equally spaced sample times h/n, 2h/n, ..., h. *)
  Definition sample_times (h : R) (n : nat) (l : list xr) : Prop :=
    length l = n /\ forall i, (i < n)%nat -> nth_error l i = Some (Fin (INR (i + 1) * h / INR n)).

  Lemma nth_error_seq s n i : (i < n)%nat -> nth_error (seq s n) i = Some (s + i)%nat.
  Proof.
    revert s i. induction n as [|n IH]; intros s i H; [lia|]. destruct i as [|i]; simpl.
    - f_equal. lia.
    - rewrite IH by lia. f_equal. lia.
  Qed.

  Lemma nZ_nat n : @nZ xr (XR r32) (Z.of_nat n) = Fin (INR n).
  Proof. rewrite nZ_Fin, <- INR_IZR_INZ. reflexivity. Qed.

  Lemma t_eval_sample_times h n : sample_times h n (t_eval_points (Fin h) n).
  Proof.
    unfold t_eval_points. split; [rewrite map_length, seq_length; reflexivity|].
    intros i Hi. rewrite map_nth_error', nth_error_seq by exact Hi. cbn [option_map]. f_equal.
    assert (Hn : 0 < INR n) by (apply lt_0_INR; lia).
    destruct (Nat.eqb_spec (1 + i) n) as [E|E].
    - rewrite <- E. replace (i + 1)%nat with (1 + i)%nat by lia. f_equal. field.
      rewrite S_INR. pose proof (pos_INR i). lra.
    - rewrite !nZ_nat, n0_Fin. simpl xmul. cbn [nadd nmul ndiv XR xdiv].
      rewrite Req_bool_false by lra. cbn [xmul xadd]. apply f_equal.
      replace (i + 1)%nat with (1 + i)%nat by lia. field. lra.
  Qed.

  Lemma sample_times_increasing h n l i j a b : 0 < h -> sample_times h n l -> (i < j)%nat ->
    nth_error l i = Some (Fin a) -> nth_error l j = Some (Fin b) -> 0 < a < b.
  Proof.
    intros Hh [L S] Hij Ha Hb.
    assert (j < n)%nat by (rewrite <- L; apply nth_error_Some; congruence).
    rewrite S in Ha, Hb by lia. injection Ha as <-. injection Hb as <-.
    assert (0 < INR n) by (apply lt_0_INR; lia).
    assert (0 < / INR n) by (apply Rinv_0_lt_compat; assumption).
    assert (INR (i + 1) < INR (j + 1)) by (apply lt_INR; lia).
    assert (0 < INR (i + 1)) by (apply lt_0_INR; lia).
    unfold Rdiv. split; [repeat apply Rmult_lt_0_compat; assumption|].
    apply Rmult_lt_compat_r; [assumption|]. apply Rmult_lt_compat_r; assumption.
  Qed.

  Lemma sample_times_last h n l : (0 < n)%nat -> sample_times h n l -> nth_error l (n - 1) = Some (Fin h).
  Proof.
    intros Hn [L S]. rewrite S by lia. replace (n - 1 + 1)%nat with n by lia. f_equal. f_equal.
    field. apply not_0_INR. lia.
  Qed.

  (** The solver is only asked for such times. *)
  Lemma sampling_observed (w w' : world xr) e h a :
    d_method (e_dyn e) = "RK45"%string -> (0 < d_samples (e_dyn e))%Z ->
    w_jax w = w_jax w' ->
    (forall f s l, sample_times h (Z.to_nat (d_samples (e_dyn e))) l ->
       w_solve_ivp w f (Fin h) s (Some l) = w_solve_ivp w' f (Fin h) s (Some l)) ->
    entity_step w e (Fin h) a = entity_step w' e (Fin h) a.
  Proof.
    intros M Sp J H. unfold entity_step.
    assert (D : decode_action w e a = decode_action w' e a) by (destruct a; simpl; rewrite ?J; reflexivity).
    rewrite D. destruct (decode_action w' e a) as [c|]; [|reflexivity].
    destruct (out_of_bounds _ _ _); [|reflexivity]. destruct (np_clip _ _ _) as [c'|]; [|reflexivity].
    unfold dyn_step, dyn__step. rewrite M. simpl.
    rewrite (proj2 (Z.ltb_lt _ _) Sp).
    rewrite (H _ _ _ (t_eval_sample_times h (Z.to_nat (d_samples (e_dyn e))))). reflexivity.
  Qed.

  (** ** Limits and wrapping, exact reals *)
  Lemma wrap_keeps_limits (w : world xr) e h a c i lo hi y :
    o_res (entity_step w e h a) = Ok tt ->
    limits_ok (d_min (e_dyn e)) (d_max (e_dyn e)) ->
    d_wrap (e_dyn e) = Some c -> bnth c i = Some (Fin 0) ->
    bnth (d_min (e_dyn e)) i = Some (Fin lo) -> bnth (d_max (e_dyn e)) i = Some (Fin hi) ->
    - PI <= lo -> hi < PI ->
    bnth (e_state (o_entity (entity_step w e h a))) i = Some y ->
    y = NaN \/ exists r, y = Fin r /\ lo <= r <= hi.
  Proof.
    intros H L Hc Hi Hlo Hhi Plo Phi Hy.
    destruct (entity_step_ok _ _ _ _ H) as (u & u' & tr & _ & _ & D & _).
    destruct (dyn_step_inv _ _ _ _ _ _ _ _ _ D) as (n & m & _ & Cl & Wr).
    pose proof (wrap_angles_at _ _ _ i Wr) as Q. rewrite Hc, Hi, Hy in Q.
    destruct (bnth m i) as [x|] eqn:Ex; [|discriminate]. assert (Q0 : y = wrap1 (Fin 0) x) by (change (@nisnan xr (XR r32) (Fin 0)) with false in Q; congruence). clear Q. rename Q0 into Q.
    destruct (clip_in_limits _ _ _ _ L Cl i x _ _ Ex Hlo Hhi) as [Nx|[A B]].
    - destruct x; try discriminate. left. rewrite Q. apply (wrap1_nonfin r32). congruence.
    - destruct x as [r| | |]; try discriminate. right. exists r.
      cbn [nleb XR xleb] in A, B.
      revert A B. case Rle_bool_spec; [|discriminate]. case Rle_bool_spec; [|discriminate].
      intros B A _ _. split; [|split; assumption]. rewrite Q, wrap1_Fin, wrapR_id by lra. f_equal. lra.
  Qed.
End Samples.

(** ** Limits and wrapping, binary64 *)
Section F.
  Variable lm : libm.
  Local Hint Extern 0 (Num f64) => exact (F64 lm) : typeclass_instances.
  Local Open Scope R_scope.

  Lemma f64_leb_R (x y : f64) : is_finite x = true -> is_finite y = true ->
    (nleb x y = true <-> B2R x <= B2R y).
  Proof.
    intros Fx Fy. cbn [nleb F64]. rewrite Bleb_correct by assumption.
    case Rle_bool_spec; intuition (lra || discriminate).
  Qed.

  (** Between finite limits a non-NaN number is finite. *)
  Lemma f64_between_finite (lo x hi : f64) : is_finite lo = true -> is_finite hi = true ->
    nleb lo x = true -> nleb x hi = true -> is_finite x = true.
  Proof.
    intros Fl Fh A B. destruct x as [s|s| |s m e Hb]; try reflexivity.
    - destruct s; [destruct lo as [[]|[]| |[]]|destruct hi as [[]|[]| |[]]]; discriminate.
    - destruct lo as [[]|[]| |[]]; discriminate.
  Qed.

  Lemma wrap64_keeps_limits (w : world f64) e h a c i lo hi y (klo khi : Z) :
    o_res (entity_step w e h a) = Ok tt ->
    limits_ok (d_min (e_dyn e)) (d_max (e_dyn e)) ->
    d_wrap (e_dyn e) = Some c -> bnth c i = Some n0 ->
    bnth (d_min (e_dyn e)) i = Some lo -> bnth (d_max (e_dyn e)) i = Some hi ->
    is_finite lo = true -> is_finite hi = true ->
    B2R lo = F2R (Float radix2 klo (-48)) -> B2R hi = F2R (Float radix2 khi (-48)) ->
    - B2R f64_pi <= B2R lo -> B2R hi < B2R f64_pi ->
    bnth (e_state (o_entity (entity_step w e h a))) i = Some y ->
    nisnan y = true \/ (nleb lo y = true /\ nleb y hi = true).
  Proof.
    intros H L Hc Hi Hlo Hhi Fl Fh Kl Kh Pl Ph Hy. fold pi64 in Pl, Ph.
    destruct (entity_step_ok _ _ _ _ H) as (u & u' & tr & _ & _ & D & _).
    destruct (dyn_step_inv _ _ _ _ _ _ _ _ _ D) as (n & m & _ & Cl & Wr).
    pose proof (wrap_angles_at _ _ _ i Wr) as Q. rewrite Hc, Hi, Hy in Q.
    destruct (bnth m i) as [x|] eqn:Ex; [|discriminate].
    assert (Q' : y = wrap1 n0 x).
    { rewrite (n0_not_nan : nisnan (n0 : f64) = false) in Q. congruence. }
    destruct (clip_in_limits _ _ _ _ L Cl i x _ _ Ex Hlo Hhi) as [Nx|[A B]].
    - left. rewrite Q'. destruct x; try discriminate. rewrite wrap64_nonfin; reflexivity.
    - right. pose proof (f64_between_finite _ _ _ Fl Fh A B) as Fx.
      assert (LH : nleb lo hi = true) by (eapply leb_trans; eassumption).
      apply f64_leb_R in A; [|assumption|assumption]. apply f64_leb_R in B; [|assumption|assumption].
      apply f64_leb_R in LH; [|assumption|assumption].
      destruct (wrap64_range lm x Fx) as [Fw _].
      assert (W := wrap64_keeps lm lo hi x Fl Fh Fx Pl (conj A B) Ph
                     (wrap64_grid lm lo klo Fl Kl ltac:(lra)) (wrap64_grid lm hi khi Fh Kh ltac:(lra))).
      rewrite Q'. split; apply f64_leb_R; try assumption; apply W.
  Qed.

  Lemma wrap64_step_range (w : world f64) e h a c i y :
    o_res (entity_step w e h a) = Ok tt ->
    d_wrap (e_dyn e) = Some c -> bnth c i = Some n0 ->
    bnth (e_state (o_entity (entity_step w e h a))) i = Some y ->
    nisnan y = true \/ (nleb (nneg npi) y = true /\ nleb y npi = true).
  Proof.
    intros H Hc Hi Hy.
    destruct (entity_step_ok _ _ _ _ H) as (u & u' & tr & _ & _ & D & _).
    destruct (dyn_step_inv _ _ _ _ _ _ _ _ _ D) as (n & m & _ & Cl & Wr).
    pose proof (wrap_angles_at _ _ _ i Wr) as Q. rewrite Hc, Hi, Hy in Q.
    destruct (bnth m i) as [x|] eqn:Ex; [|discriminate].
    assert (Q' : y = wrap1 n0 x).
    { rewrite (n0_not_nan : nisnan (n0 : f64) = false) in Q. congruence. }
    rewrite Q'. destruct (is_finite x) eqn:Fx.
    - right. destruct (wrap64_range lm x Fx) as [Fw [A B]].
      split; apply f64_leb_R; try assumption; try (apply pi_finite); try reflexivity.
      cbn [nneg F64 npi]. rewrite B2R_Bopp. exact A.
    - left. rewrite wrap64_nonfin by exact Fx. reflexivity.
  Qed.
End F.
