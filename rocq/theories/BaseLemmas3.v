(** Further lemmas about the step machinery: pre-saturated actions, histories of steps,
    Euler steps, dispatch, sampling, wrong-length actions. *)
From Coq Require Import String List Bool Arith ZArith Lia.
From Verif Require Import PyBase Num Arr BaseModel Spec SpecBase NumOrdLemmas ArrLemmas BaseLemmas BaseLemmas2.
Import ListNotations.

Section L.
  Context {T : Type} {N : Num T} {O : NumOrd T}.

  Lemma clip1_saturates (x lo hi : T) : nleb lo hi = true -> saturates lo hi x (clip1 x lo hi).
  Proof.
    intros L. unfold saturates. destruct (leb_not_nan _ _ L) as [Nl Nh].
    destruct (nisnan x) eqn:Nx.
    - left. split; [reflexivity|]. unfold clip1, np_max_clip, np_min_clip. rewrite Nx, Nx. reflexivity.
    - right. destruct (nltb x lo) eqn:E1.
      + left. split; [reflexivity|]. apply clip1_low; assumption.
      + right. destruct (nltb hi x) eqn:E2.
        * left. split; [reflexivity|]. rewrite clip1_high by assumption. apply eqb_refl. assumption.
        * right. assert (nleb lo x = true) by (apply nltb_leb; assumption).
          assert (nleb x hi = true) by (apply nltb_leb; assumption).
          repeat split; auto. apply clip1_inside; assumption.
  Qed.

  Lemma clip1_idem (x lo hi : T) : nleb lo hi = true -> clip1 (clip1 x lo hi) lo hi = clip1 x lo hi.
  Proof.
    intros L. destruct (leb_not_nan _ _ L) as [Nl Nh].
    unfold clip1, np_max_clip, np_min_clip.
    destruct (nisnan x) eqn:Nx; [rewrite !Nx; reflexivity|].
    destruct (nltb lo x) eqn:E1.
    - rewrite Nx. destruct (nltb x hi) eqn:E2.
      + rewrite Nx, E1, Nx, E2. reflexivity.
      + rewrite Nh. destruct (nltb lo hi) eqn:E3.
        * rewrite Nh, ltb_irrefl. reflexivity.
        * rewrite Nl, E3. reflexivity.
    - rewrite Nl. destruct (nltb lo hi) eqn:E3.
      + rewrite Nl, ltb_irrefl, Nl, E3. reflexivity.
      + rewrite Nh, E3, Nl, E3. reflexivity.
  Qed.

  Lemma clip1_interior (x lo hi : T) : nltb lo x = true -> nltb x hi = true -> clip1 x lo hi = x.
  Proof.
    intros A B. destruct (ltb_not_nan _ _ A) as [_ Nx].
    unfold clip1, np_max_clip, np_min_clip. rewrite Nx, A, Nx, B. reflexivity.
  Qed.

  Lemma fits_shape (lim c c' : arr T) : same_shape c c' -> fits lim c -> fits lim c'.
  Proof. destruct lim, c, c'; simpl; try tauto. congruence. Qed.

  Lemma bmap2_shape (f : T -> T -> T) c lim r : fits lim c -> bmap2 f c lim = Ok r -> same_shape c r.
  Proof.
    destruct c as [x|l], lim as [y|m]; cbn [fits bmap2]; intros F H; try contradiction.
    - injection H as <-. exact I.
    - injection H as <-. simpl. rewrite map_length. reflexivity.
    - rewrite F, Nat.eqb_refl in H. injection H as <-. simpl. rewrite zipw_length; auto.
  Qed.

  Lemma same_shape_trans (a b c : arr T) : same_shape a b -> same_shape b c -> same_shape a c.
  Proof. destruct a, b, c; simpl; try tauto. congruence. Qed.

  Lemma clip_shape (c lo hi r : arr T) : fits lo c -> fits hi c -> np_clip c lo hi = Ok r -> same_shape c r.
  Proof.
    unfold np_clip, bind. intros F1 F2. destruct (bmap2 np_max_clip c lo) as [m|] eqn:E; [|discriminate].
    intros H. pose proof (bmap2_shape _ _ _ _ F1 E) as S. eapply same_shape_trans; [exact S|].
    eapply bmap2_shape; [|exact H]. eapply fits_shape; eassumption.
  Qed.

  Lemma same_shape_anth (a b : arr T) : same_shape a b -> (forall i, anth a i = anth b i) -> a = b.
  Proof.
    destruct a as [x|l], b as [y|m]; simpl; try tauto; intros S H.
    - specialize (H 0). simpl in H. congruence.
    - f_equal. apply list_ext; assumption.
  Qed.

  Lemma fits_bnth (lim c : arr T) i x : fits lim c -> anth c i = Some x -> exists l, bnth lim i = Some l.
  Proof.
    destruct lim as [y|m]; [exists y; reflexivity|]. destruct c as [z|l]; [intros []|].
    cbn [fits anth]. intros F Hx.
    assert (i < length m) by (rewrite F; apply nth_error_Some; congruence).
    destruct (Nat.eq_dec (length m) 1) as [E|E].
    - destruct (len1 m E) as [q ->]. exists q. reflexivity.
    - rewrite bnth_A1 by exact E. destruct (nth_error m i) eqn:Em; [eauto|].
      apply nth_error_None in Em. lia.
  Qed.

  Lemma clip_again (c lo hi r : arr T) : limits_ok lo hi -> fits lo c -> fits hi c ->
    np_clip c lo hi = Ok r -> np_clip r lo hi = Ok r.
  Proof.
    intros L F1 F2 H. pose proof (clip_shape _ _ _ _ F1 F2 H) as S.
    assert (F1' := fits_shape _ _ _ S F1). assert (F2' := fits_shape _ _ _ S F2).
    destruct (clip_fits c lo hi F1 F2) as (r1 & E1 & At1). rewrite H in E1. injection E1 as <-.
    destruct (clip_fits r lo hi F1' F2') as (r2 & E2 & At2). rewrite E2. f_equal.
    pose proof (clip_shape _ _ _ _ F1' F2' E2) as S2. symmetry. apply same_shape_anth; [exact S2|].
    intros i. rewrite At2, At1. destruct (anth c i) as [x|]; [|reflexivity].
    destruct (bnth lo i) as [l|] eqn:El; [|reflexivity]. destruct (bnth hi i) as [h|] eqn:Eh; [|reflexivity].
    rewrite clip1_idem; [reflexivity|]. eapply L; eassumption.
  Qed.

  (** The step a vector action causes is the step its saturation causes. *)
  Lemma presaturated (w : world T) e h c :
    limits_ok (e_cmin e) (e_cmax e) -> fits (e_cmin e) c -> fits (e_cmax e) c ->
    exists c', same_shape c c' /\
      (forall i x, anth c i = Some x -> exists l u y, bnth (e_cmin e) i = Some l /\
         bnth (e_cmax e) i = Some u /\ anth c' i = Some y /\ saturates l u x y) /\
      same_effect (entity_step w e h (AArr c)) (entity_step w e h (AArr c')) /\
      o_warned (entity_step w e h (AArr c')) = false.
  Proof.
    intros L F1 F2. destruct (clip_fits c _ _ F1 F2) as (c' & E & At).
    pose proof (clip_shape _ _ _ _ F1 F2 E) as S. exists c'. split; [exact S|].
    assert (El : forall i x, anth c i = Some x -> exists l u y, bnth (e_cmin e) i = Some l /\
         bnth (e_cmax e) i = Some u /\ anth c' i = Some y /\ saturates l u x y).
    { intros i x Hx. destruct (fits_bnth _ _ _ _ F1 Hx) as [l Hl]. destruct (fits_bnth _ _ _ _ F2 Hx) as [u Hu].
      exists l, u, (clip1 x l u). rewrite At, Hx, Hl, Hu. repeat split; auto.
      apply clip1_saturates. eapply L; eassumption. }
    split; [exact El|].
    assert (F1' := fits_shape _ _ _ S F1). assert (F2' := fits_shape _ _ _ S F2).
    assert (W : o_warned (entity_step w e h (AArr c')) = false).
    { destruct (o_warned (entity_step w e h (AArr c'))) eqn:Q; [|reflexivity]. exfalso.
      apply warned_iff in Q; [|assumption|assumption].
      destruct Q as (i & y & Hy & Q).
      pose proof (clip_in_limits c _ _ _ L E) as In.
      destruct Q as [(l & Hl & Q)|(u & Hu & Q)].
      - destruct (fits_bnth _ _ _ _ F2' Hy) as [u Hu].
        destruct (In i y l u (anth_bnth _ _ _ Hy) Hl Hu) as [Ny|[A B]].
        + rewrite nan_ltb_l in Q by assumption. discriminate.
        + rewrite leb_nltb in Q by assumption. discriminate.
      - destruct (fits_bnth _ _ _ _ F1' Hy) as [l Hl].
        destruct (In i y l u (anth_bnth _ _ _ Hy) Hl Hu) as [Ny|[A B]].
        + rewrite nan_ltb_r in Q by assumption. discriminate.
        + rewrite leb_nltb in Q by assumption. discriminate. }
    split; [|exact W].
    pose proof (clip_again _ _ _ _ L F1 F2 E) as E'.
    destruct (out_of_bounds_spec c _ _ F1 F2) as (b & B & _).
    destruct (out_of_bounds_spec c' _ _ F1' F2') as (b' & B' & _).
    unfold same_effect, entity_step. simpl. rewrite B, B', E, E'.
    destruct (dyn_step _ _ _ _ _ _) as [tr [[s' sd]|x]]; split; reflexivity.
  Qed.

  (** A strictly interior vector is passed on unchanged. *)
  Lemma passthrough_exact (w : world T) e h c raw' :
    fits (e_cmin e) c -> fits (e_cmax e) c ->
    (forall i x l u, anth c i = Some x -> bnth (e_cmin e) i = Some l -> bnth (e_cmax e) i = Some u ->
       nltb l x = true /\ nltb x u = true) ->
    (forall t x, d_raw (e_dyn e) t x c = raw' t x c) ->
    same_outcome (entity_step w (set_raw e raw') h (AArr c)) (entity_step w e h (AArr c)).
  Proof.
    intros F1 F2 In H. apply entity_step_raw. intros c0 c' t x E Hc. simpl in E. injection E as <-.
    destruct (clip_fits c _ _ F1 F2) as (r & Er & At). rewrite Hc in Er. injection Er as <-.
    assert (c' = c) as ->; [|apply H].
    symmetry. apply same_shape_anth; [apply (clip_shape _ _ _ _ F1 F2 Hc)|].
    intros i. rewrite At. destruct (anth c i) as [y|] eqn:Ey; [|reflexivity].
    destruct (fits_bnth _ _ _ _ F1 Ey) as [l Hl]. destruct (fits_bnth _ _ _ _ F2 Ey) as [u Hu].
    rewrite Hl, Hu. destruct (In i y l u Ey Hl Hu). rewrite clip1_interior; auto.
  Qed.

  (** ** Histories of successful steps *)
  Lemma run_last (w : world T) e acts e' : acts <> [] -> run w e acts = Ok e' ->
    exists e1 h a, same_config e1 e /\ o_res (entity_step w e1 h a) = Ok tt /\
      e' = o_entity (entity_step w e1 h a).
  Proof.
    revert e. induction acts as [|[h a] acts IH]; intros e Ne H; [congruence|].
    simpl in H. destruct (o_res (entity_step w e h a)) as [[]|] eqn:E; [|discriminate]. simpl in H.
    destruct acts as [|p acts].
    - simpl in H. injection H as <-. exists e, h, a. repeat split; auto.
    - destruct (IH (o_entity (entity_step w e h a)) ltac:(discriminate) H) as (e1 & h1 & a1 & C & R & E').
      exists e1, h1, a1. split; [|auto]. eapply same_config_trans; [exact C|apply entity_step_config].
  Qed.

  Lemma run_limits (w : world T) e acts e' :
    acts <> [] -> run w e acts = Ok e' ->
    limits_ok (d_min (e_dyn e)) (d_max (e_dyn e)) ->
    forall i x l u, bnth (e_state e') i = Some x ->
      bnth (d_min (e_dyn e)) i = Some l -> bnth (d_max (e_dyn e)) i = Some u ->
      ~ wrapped_at (e_dyn e) i ->
      nisnan x = true \/ (nleb l x = true /\ nleb x u = true).
  Proof.
    intros Ne H L i x l u Hx Hl Hu NW.
    destruct (run_last _ _ _ _ Ne H) as (e1 & h & a & (Cd & _) & R & ->).
    rewrite <- Cd in *. eapply step_in_limits; eassumption.
  Qed.

  (** After one successful step, limits survive any further steps, failed or not. *)
  Lemma history_limits (w : world T) e h a l :
    o_res (entity_step w e h a) = Ok tt ->
    limits_ok (d_min (e_dyn e)) (d_max (e_dyn e)) ->
    forall i x lo hi,
      bnth (e_state (exec_all w e (OStep h a :: map (fun p => OStep (fst p) (snd p)) l))) i = Some x ->
      bnth (d_min (e_dyn e)) i = Some lo -> bnth (d_max (e_dyn e)) i = Some hi ->
      ~ wrapped_at (e_dyn e) i ->
      nisnan x = true \/ (nleb lo x = true /\ nleb x hi = true).
  Proof.
    intros H L i x lo hi Hx Hlo Hhi NW.
    destruct (entity_step_config w e h a) as (Cd & _).
    eapply (steps_keep_limits w (o_entity (entity_step w e h a)) l); try rewrite Cd; eauto.
    intros y Hy. eapply step_in_limits; eassumption.
  Qed.

  (** ** Euler steps *)
  Lemma euler_step (w : world T) e h a :
    d_method (e_dyn e) = "Euler"%string ->
    o_res (entity_step w e h a) = Ok tt ->
    exists c c' sd,
      decode_action w e a = Ok c /\ np_clip c (e_cmin e) (e_cmax e) = Ok c' /\
      compute_state_dot (e_dyn e) n0 (e_state e) c' = Ok sd /\
      e_sdot (o_entity (entity_step w e h a)) = sd /\
      forall i y, bnth (e_state (o_entity (entity_step w e h a))) i = Some y ->
        exists x di lo hi, bnth (e_state e) i = Some x /\ bnth sd i = Some di /\
          bnth (d_min (e_dyn e)) i = Some lo /\ bnth (d_max (e_dyn e)) i = Some hi /\
          y = match d_wrap (e_dyn e) with
              | None => clip1 (nadd x (nmul h di)) lo hi
              | Some c => match bnth c i with
                          | None => y
                          | Some cc => if nisnan cc then clip1 (nadd x (nmul h di)) lo hi
                                       else wrap1 cc (clip1 (nadd x (nmul h di)) lo hi)
                          end
              end.
  Proof.
    intros M H. destruct (entity_step_ok _ _ _ _ H) as (c & c' & tr & Ec & Ec' & D & _).
    destruct (dyn_step_inv _ _ _ _ _ _ _ _ _ D) as (n & m & St & Cl & Wr).
    unfold dyn__step in St. rewrite M in St. simpl in St.
    destruct (py_assert (d_samples (e_dyn e) <=? 0)%Z); [|discriminate]. simpl in St.
    destruct (compute_state_dot (e_dyn e) n0 (e_state e) c') as [sd|] eqn:Es; [|discriminate]. simpl in St.
    destruct (bmap2 nadd (e_state e) (amap (nmul h) sd)) as [nx|] eqn:En; [|discriminate]. simpl in St.
    injection St as _ -> Esd. exists c, c', sd. repeat split; auto.
    intros i y Hy. pose proof (wrap_angles_at _ _ _ i Wr) as Q.
    assert (Hm : bnth m i <> None).
    { destruct (d_wrap (e_dyn e)); rewrite Hy in Q; destruct (bnth m i); congruence. }
    pose proof (bnth_clip _ _ _ _ i Cl) as Qc. pose proof (bnth_bmap2 _ _ _ _ i En) as Qn.
    rewrite bnth_amap in Qn. rewrite Qn in Qc.
    destruct (bnth (e_state e) i) as [x|]; [|congruence].
    destruct (bnth sd i) as [di|]; [|simpl in *; congruence]. simpl in Qc.
    destruct (bnth (d_min (e_dyn e)) i) as [lo|]; [|congruence].
    destruct (bnth (d_max (e_dyn e)) i) as [hi|]; [|congruence].
    exists x, di, lo, hi. repeat split.
    destruct (d_wrap (e_dyn e)) as [cw|].
    - destruct (bnth cw i) as [cc|]; [|reflexivity]. rewrite Hy, Qc in Q. congruence.
    - congruence.
  Qed.

  (** ** Dispatch *)
  Definition bad_config (d : dyn T) : option exn :=
    if String.eqb (d_method d) "RK45" then None
    else if String.eqb (d_method d) "RK45_JAX" then
      if d_use_jax d then if (0 <? d_samples d)%Z then Some AssertionError else None
      else Some ValueError
    else if String.eqb (d_method d) "Euler" then
      if (0 <? d_samples d)%Z then Some AssertionError else None
    else Some ValueError.

  Lemma dispatch_err (w : world T) d tr h s u x :
    bad_config d = Some x -> dyn_step w d tr h s u = (tr, Err x).
  Proof.
    unfold bad_config, dyn_step, dyn__step.
    destruct (String.eqb (d_method d) "RK45"); [discriminate|].
    destruct (String.eqb (d_method d) "RK45_JAX").
    - destruct (d_use_jax d); simpl.
      + destruct (Z.ltb_spec 0 (d_samples d)); [|discriminate].
        rewrite (proj2 (Z.leb_gt _ _)) by lia. simpl. congruence.
      + congruence.
    - destruct (String.eqb (d_method d) "Euler"); [|simpl; congruence].
      destruct (Z.ltb_spec 0 (d_samples d)); [|discriminate].
      rewrite (proj2 (Z.leb_gt _ _)) by lia. simpl. congruence.
  Qed.

  Lemma dispatch_step (w : world T) e h c x :
    bad_config (e_dyn e) = Some x -> fits (e_cmin e) c -> fits (e_cmax e) c ->
    o_res (entity_step w e h (AArr c)) = Err x /\ o_entity (entity_step w e h (AArr c)) = e.
  Proof.
    intros B F1 F2. destruct (out_of_bounds_spec c _ _ F1 F2) as (b & Eb & _).
    destruct (clip_fits c _ _ F1 F2) as (c' & Ec & _).
    unfold entity_step. simpl. rewrite Eb, Ec, (dispatch_err _ _ _ _ _ _ _ B). simpl. split; [reflexivity|].
    destruct e; reflexivity.
  Qed.
End L.
