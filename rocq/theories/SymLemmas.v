(** Proofs about turned and mirrored flights. *)
From Coq Require Import String List Bool Arith ZArith Lia Reals Lra.
From Flocq Require Import Core.Core.
From Verif Require Import PyBase Num Arr BaseModel Cwh Rot2d Utils SixDof Dubins Integ Spec SpecBase SpecWrap XReal NumOrdLemmas ArrLemmas
  BaseLemmas BaseLemmas2 BaseLemmas3 BaseLemmas4 WrapLemmas XTac SpecRk SpecCwh RkLemmas CwhLemmas LimLemmas
  SpecSixDof SpecDubins DubinsLemmas Rot2dLemmas SixDofLemmas SpecInteg IntegLemmas SpecSym.
Import List ListNotations.
Local Open Scope R_scope.
Local Hint Extern 0 (Num xr) => exact (XR Fin) : typeclass_instances.

Definition compatible (S D : vrel) : Prop :=
  (forall s s' k k', S s s' -> D k k' -> length k = length s /\ length k' = length s') /\
  (forall s s' k k' c, S s s' -> D k k' -> S (vaxpy s c k) (vaxpy s' c k')).

Lemma axpy_fin s c k : zipw xadd (map Fin s) (map (xmul (Fin c)) (map Fin k)) = map Fin (vaxpy s c k).
Proof.
  revert k. induction s as [|x s IH]; intros [|y k]; try reflexivity. cbn. f_equal. apply IH.
Qed.

Lemma F2rev {A B} (P : A -> B -> Prop) l m : Forall2 P l m -> Forall2 P (rev l) (rev m).
Proof. induction 1; simpl; [constructor|]. apply Forall2_app; [assumption|]. constructor; [assumption|constructor]. Qed.

Section Erk.
  Variables S D : vrel.
  Hypothesis Co : compatible S D.
  Variables f f' : xr -> arr xr -> res (arr xr).
  Hypothesis Rf : related_fields S D f f'.
  Definition slope_rel (a b : arr xr) : Prop := exists k k', a = A1 (map Fin k) /\ b = A1 (map Fin k') /\ D k k'.

  Lemma erk_sum_rel h ws : forall ks ks' s s', Forall2 slope_rel ks ks' -> S s s' ->
    exists q q', erk_sum h (A1 (map Fin s)) ws ks = Ok (A1 (map Fin q)) /\
      erk_sum h (A1 (map Fin s')) ws ks' = Ok (A1 (map Fin q')) /\ S q q'.
  Proof.
    induction ws as [|c ws IH]; intros ks ks' s s' Fk Ss.
    - exists s, s'. repeat split; auto.
    - destruct Fk as [|a b ks ks' (k & k' & -> & -> & Dk) Fk]; [exists s, s'; repeat split; auto|].
      destruct (proj1 Co _ _ _ _ Ss Dk) as (L1 & L2). cbn [erk_sum amap bmap2].
      rewrite !map_length, L1, L2, !Nat.eqb_refl. cbn [bind]. rewrite !axpy_fin.
      apply IH; [exact Fk|]. apply (proj2 Co); assumption.
  Qed.
  Lemma erk_slopes_rel h s s' st : S s s' -> forall ks ks', Forall2 slope_rel ks ks' ->
    exists r r', erk_slopes f h (A1 (map Fin s)) st ks = Ok r /\ erk_slopes f' h (A1 (map Fin s')) st ks' = Ok r' /\
      Forall2 slope_rel r r'.
  Proof.
    intros Ss. induction st as [|[c a] st IH]; intros ks ks' Fk.
    - exists ks, ks'. repeat split; auto.
    - cbn [erk_slopes]. destruct (erk_sum_rel h a ks ks' s s' Fk Ss) as (q & q' & -> & -> & Sq). cbn [bind].
      destruct (Rf (c * h) q q' Sq) as (k & k' & -> & -> & Dk). cbn [bind].
      apply IH. apply Forall2_app; [exact Fk|]. constructor; [|constructor]. exists k, k'. auto.
  Qed.
  Lemma erk_step_rel h s s' tb : S s s' -> exists q q', erk_step f h (A1 (map Fin s)) tb = Ok (map Fin q) /\
    erk_step f' h (A1 (map Fin s')) tb = Ok (map Fin q') /\ S q q'.
  Proof.
    intros Ss. unfold erk_step. destruct (erk_slopes_rel h s s' (tb_stages tb) Ss [] [] (Forall2_nil _)) as (r & r' & -> & -> & Fr).
    cbn [bind]. destruct (erk_sum_rel h (tb_weights tb) r r' s s' Fr Ss) as (q & q' & -> & -> & Sq). cbn [bind]. eauto.
  Qed.
End Erk.

Lemma erk_equivariant S D tb : compatible S D -> equivariant_solver S D (erk_world tb).
Proof.
  intros Co f f' s s' h te Rf Ss. cbn [erk_world w_solve_ivp].
  set (ts := match te with None => [Fin h] | Some ts => ts end). clearbody ts.
  assert (H : exists r r', mapM (fun t => erk_step f (real_of t) (A1 (map Fin s)) tb) ts = Ok r /\
    mapM (fun t => erk_step f' (real_of t) (A1 (map Fin s')) tb) ts = Ok r' /\
    Forall2 (fun a b => exists q q', a = map Fin q /\ b = map Fin q' /\ S q q') r r').
  { induction ts as [|t ts IH]; [exists [], []; repeat split; constructor|]. cbn [mapM].
    destruct (erk_step_rel S D Co f f' Rf (real_of t) s s' tb Ss) as (q & q' & -> & -> & Sq). cbn [bind].
    destruct IH as (r & r' & -> & -> & Fr). cbn [bind]. exists (map Fin q :: r), (map Fin q' :: r').
    split; [reflexivity|]. split; [reflexivity|]. constructor; [|exact Fr]. eauto. }
  destruct H as (r & r' & -> & -> & Fr). cbn [bind sol_y]. exact Fr.
Qed.

(** A symmetry of a dynamics object with control limits [cmin], [cmax]: [V] relates requested
    controls, [S] states, [S0] states before limits and wrapping, [D] derivatives. *)
Record symmetry (d : dyn xr) (cmin cmax : arr xr) (V S S0 D : vrel) : Prop := {
  sy_dot : forall t s s' u u', S s s' -> V u u' ->
    exists c c' k k', np_clip (A1 (map Fin u)) cmin cmax = Ok (A1 (map Fin c)) /\
      np_clip (A1 (map Fin u')) cmin cmax = Ok (A1 (map Fin c')) /\
      compute_state_dot d t (A1 (map Fin s)) (A1 (map Fin c)) = Ok (A1 (map Fin k)) /\
      compute_state_dot d t (A1 (map Fin s')) (A1 (map Fin c')) = Ok (A1 (map Fin k')) /\ D k k';
  sy_oob : forall u u', V u u' -> is_ok (out_of_bounds (A1 (map Fin u)) cmin cmax) = true /\
      is_ok (out_of_bounds (A1 (map Fin u')) cmin cmax) = true;
  sy_len : forall s s' k k', S s s' -> D k k' -> length k = length s /\ length k' = length s';
  sy_add : forall s s' k k' c, S s s' -> D k k' -> S0 (vaxpy s c k) (vaxpy s' c k');
  sy_lim : forall s s', S0 s s' -> exists q q',
      (r <- np_clip (A1 (map Fin s)) (d_min d) (d_max d) ;; wrap_angles d r) = Ok (A1 (map Fin q)) /\
      (r <- np_clip (A1 (map Fin s')) (d_min d) (d_max d) ;; wrap_angles d r) = Ok (A1 (map Fin q')) /\ S q q'
}.

Section Run.
  Variables (d : dyn xr) (cmin cmax : arr xr) (V S S0 D : vrel) (w : world xr).
  Hypothesis Sy : symmetry d cmin cmax V S S0 D.
  Hypothesis Fa : d_method d = "Euler"%string \/
    d_method d = "RK45"%string /\ equivariant_solver S D w /\ (forall s s', S s s' -> S0 s s').

  Lemma dyn__step_sym tr tr' h s s' u u' : S s s' -> V u u' ->
    exists c c', np_clip (A1 (map Fin u)) cmin cmax = Ok c /\ np_clip (A1 (map Fin u')) cmin cmax = Ok c' /\
    match snd (dyn__step w d tr (Fin h) (A1 (map Fin s)) c), snd (dyn__step w d tr' (Fin h) (A1 (map Fin s')) c') with
    | Ok (x, sd), Ok (x', sd') => exists q q' k k', x = A1 (map Fin q) /\ x' = A1 (map Fin q') /\ S0 q q' /\
        sd = A1 (map Fin k) /\ sd' = A1 (map Fin k') /\ D k k'
    | Err x, Err y => x = y
    | _, _ => False
    end.
  Proof.
    intros Ss Vu.
    destruct (sy_dot _ _ _ _ _ _ _ Sy n0 s s' u u' Ss Vu) as (c & c' & k & k' & C1 & C2 & K1 & K2 & Dk).
    exists (A1 (map Fin c)), (A1 (map Fin c')). split; [exact C1|]. split; [exact C2|].
    unfold dyn__step. destruct Fa as [Me|(Me & Eq & Sub)]; rewrite Me; cbn [String.eqb Ascii.eqb Bool.eqb snd].
    - destruct (py_assert (d_samples d <=? 0)%Z); cbn [bind]; [|reflexivity].
      rewrite K1, K2. cbn [bind amap bmap2]. destruct (sy_len _ _ _ _ _ _ _ Sy _ _ _ _ Ss Dk) as (L1 & L2).
      rewrite !map_length, L1, L2, !Nat.eqb_refl. cbn [bind].
      exists (vaxpy s h k), (vaxpy s' h k'), k, k'.
      split; [f_equal; apply axpy_fin|]. split; [f_equal; apply axpy_fin|].
      split; [apply (sy_add _ _ _ _ _ _ _ Sy); assumption|]. repeat split; auto.
    - set (te := if (0 <? d_samples d)%Z then _ else _).
      assert (Rf : related_fields S D (fun t x => compute_state_dot d t x (A1 (map Fin c))) (fun t x => compute_state_dot d t x (A1 (map Fin c')))).
      { intros t q q' Sq. destruct (sy_dot _ _ _ _ _ _ _ Sy (Fin t) q q' u u' Sq Vu) as (c2 & c2' & j & j' & C3 & C4 & J1 & J2 & Dj).
        rewrite C1 in C3. rewrite C2 in C4. apply Ok_Fin_inj in C3. apply Ok_Fin_inj in C4. subst c2 c2'.
        exists j, j'. auto. }
      pose proof (Eq _ _ s s' h te Rf Ss) as H.
      destruct (w_solve_ivp w _ (Fin h) (A1 (map Fin s)) te) as [r|x], (w_solve_ivp w _ (Fin h) (A1 (map Fin s')) te) as [r'|y]; try contradiction.
      2: { exact H. }
      remember (sol_y r) as l. remember (sol_y r') as l'. destruct H as [|a b l l' Hab H]; [reflexivity|]. cbn [snd].
      assert (F2 : Forall2 (fun a b => exists q q', a = map Fin q /\ b = map Fin q' /\ S q q') (a :: l) (b :: l')) by (constructor; assumption).
      apply F2rev in F2. unfold last_row. remember (rev (a :: l)) as rl eqn:El. remember (rev (b :: l')) as rl' eqn:El'.
      destruct F2 as [|a' b' m m' (q & q' & -> & -> & Sq) F3].
      { cbn in El. symmetry in El. apply app_eq_nil in El. destruct El. discriminate. }
      cbn [bind]. destruct (sy_dot _ _ _ _ _ _ _ Sy (Fin h) q q' u u' Sq Vu) as (c2 & c2' & j & j' & C3 & C4 & J1 & J2 & Dj).
      rewrite C1 in C3. rewrite C2 in C4. apply Ok_Fin_inj in C3. apply Ok_Fin_inj in C4. subst c2 c2'.
      rewrite J1, J2. cbn [bind]. exists q, q', j, j'. repeat split; auto.
  Qed.

  Definition sym_entities (e e' : entity xr) : Prop :=
    e_dyn e = d /\ e_dyn e' = d /\ e_cmin e = cmin /\ e_cmin e' = cmin /\ e_cmax e = cmax /\ e_cmax e' = cmax /\
    exists s s' k k', e_state e = A1 (map Fin s) /\ e_state e' = A1 (map Fin s') /\ S s s' /\
      e_sdot e = A1 (map Fin k) /\ e_sdot e' = A1 (map Fin k') /\ D k k'.

  Lemma step_sym e e' h u u' : sym_entities e e' -> V u u' ->
    o_res (entity_step w e (Fin h) (AArr (A1 (map Fin u)))) = o_res (entity_step w e' (Fin h) (AArr (A1 (map Fin u')))) /\
    sym_entities (o_entity (entity_step w e (Fin h) (AArr (A1 (map Fin u))))) (o_entity (entity_step w e' (Fin h) (AArr (A1 (map Fin u'))))).
  Proof.
    intros (D1 & D2 & M1 & M2 & X1 & X2 & s & s' & k & k' & E1 & E2 & Ss & F1 & F2 & Dk) Vu.
    unfold entity_step. cbn [decode_action]. rewrite M1, M2, X1, X2, D1, D2, E1, E2.
    destruct (sy_oob _ _ _ _ _ _ _ Sy u u' Vu) as (O1 & O2).
    destruct (out_of_bounds (A1 (map Fin u)) cmin cmax) as [b|]; [|discriminate].
    destruct (out_of_bounds (A1 (map Fin u')) cmin cmax) as [b'|]; [|discriminate].
    destruct (dyn__step_sym (e_traj e) (e_traj e') h s s' u u' Ss Vu) as (c & c' & -> & -> & H).
    unfold dyn_step. destruct (dyn__step w d (e_traj e) (Fin h) (A1 (map Fin s)) c) as [t1 r1].
    destruct (dyn__step w d (e_traj e') (Fin h) (A1 (map Fin s')) c') as [t2 r2]. cbn [snd] in H.
    destruct r1 as [[x sd]|x], r2 as [[x' sd']|y]; try contradiction; cbn [bind].
    - destruct H as (q & q' & j & j' & -> & -> & Sq & -> & -> & Dj).
      destruct (sy_lim _ _ _ _ _ _ _ Sy q q' Sq) as (p & p' & P1 & P2 & Sp).
      destruct (np_clip (A1 (map Fin q)) (d_min d) (d_max d)) as [r|]; [|discriminate]. cbn [bind] in P1 |- *.
      destruct (np_clip (A1 (map Fin q')) (d_min d) (d_max d)) as [r'|]; [|discriminate]. cbn [bind] in P2 |- *.
      rewrite P1, P2. cbn [bind o_res o_entity]. split; [reflexivity|].
      unfold sym_entities, with_step; cbn. repeat (split; [assumption|]). exists p, p', j, j'. repeat split; auto.
    - cbn [o_res o_entity]. split; [congruence|]. unfold sym_entities, with_traj; cbn. repeat (split; [assumption|]).
      exists s, s', k, k'. repeat split; auto.
  Qed.

  (** With the Euler method and no saved trajectory nothing is raised. *)
  Lemma step_sym_ok e e' h u u' : d_method d = "Euler"%string -> (d_samples d <= 0)%Z -> sym_entities e e' -> V u u' ->
    o_res (entity_step w e (Fin h) (AArr (A1 (map Fin u)))) = Ok tt.
  Proof.
    intros Me Sa (D1 & _ & M1 & _ & X1 & _ & s & s' & _ & _ & E1 & _ & Ss & _) Vu.
    destruct (sy_oob _ _ _ _ _ _ _ Sy u u' Vu) as (O1 & _).
    destruct (sy_dot _ _ _ _ _ _ _ Sy n0 s s' u u' Ss Vu) as (c & c' & k & k' & C1 & _ & K1 & _ & Dk).
    destruct (sy_len _ _ _ _ _ _ _ Sy _ _ _ _ Ss Dk) as (L1 & _).
    pose proof (sy_add _ _ _ _ _ _ _ Sy _ _ _ _ h Ss Dk) as Sq.
    destruct (sy_lim _ _ _ _ _ _ _ Sy _ _ Sq) as (p & _ & P1 & _ & _).
    unfold entity_step. cbn [decode_action]. rewrite M1, X1, D1, E1.
    destruct (out_of_bounds (A1 (map Fin u)) cmin cmax) as [b|]; [|discriminate]. rewrite C1.
    unfold dyn_step, dyn__step. rewrite Me. cbn [String.eqb Ascii.eqb Bool.eqb snd].
    replace (d_samples d <=? 0)%Z with true by (symmetry; apply Z.leb_le; exact Sa). cbn [py_assert bind].
    rewrite K1. cbn [bind amap bmap2]. rewrite !map_length, L1, Nat.eqb_refl. cbn [bind].
    change (zipw nadd (map Fin s) (map (nmul (Fin h)) (map Fin k))) with (zipw xadd (map Fin s) (map (xmul (Fin h)) (map Fin k))).
    rewrite axpy_fin. destruct (np_clip (A1 (map Fin (vaxpy s h k))) (d_min d) (d_max d)) as [r|]; [|discriminate]. cbn [bind] in P1 |- *.
    rewrite P1. reflexivity.
  Qed.
  Lemma run_sym_ok acts acts' : d_method d = "Euler"%string -> (d_samples d <= 0)%Z ->
    Forall2 (fun a b => fst a = fst b /\ V (snd a) (snd b)) acts acts' ->
    forall e e', sym_entities e e' -> exists e1, run w e (array_acts acts) = Ok e1.
  Proof.
    intros Me Sa. induction 1 as [|[h u] [h' u'] l l' [Eh Vu] F IH]; intros e e' He; [exists e; reflexivity|].
    cbn [fst snd] in *. subst h'. cbn [array_acts map run fst snd].
    destruct (step_sym e e' h u u' He Vu) as (_ & He').
    rewrite (step_sym_ok e e' h u u' Me Sa He Vu). cbn [bind]. eapply IH. exact He'.
  Qed.

  Lemma run_sym acts acts' : Forall2 (fun a b => fst a = fst b /\ V (snd a) (snd b)) acts acts' ->
    forall e e', sym_entities e e' -> related_runs S D (run w e (array_acts acts)) (run w e' (array_acts acts')).
  Proof.
    induction 1 as [|[h u] [h' u'] l l' [Eh Vu] F IH]; intros e e' He.
    - destruct He as (_ & _ & _ & _ & _ & _ & H). exact H.
    - cbn [fst snd] in *. subst h'. cbn [array_acts map run fst snd].
      destruct (step_sym e e' h u u' He Vu) as (-> & He').
      destruct (o_res (entity_step w e' (Fin h) (AArr (A1 (map Fin u'))))); cbn [bind]; [|reflexivity].
      apply IH. exact He'.
  Qed.
  Lemma run_sym_both me k acts acts' : d_method d = me /\ d_samples d = k ->
    Forall2 (fun a b => fst a = fst b /\ V (snd a) (snd b)) acts acts' ->
    forall e e', sym_entities e e' -> paired_runs me k S D (run w e (array_acts acts)) (run w e' (array_acts acts')).
  Proof.
    intros (<- & <-) Fu e e' He. split; [now apply run_sym|]. intros M1 M2.
    destruct (run_sym_ok acts acts' M1 M2 Fu e e' He) as (e1 & ->). reflexivity.
  Qed.
End Run.
