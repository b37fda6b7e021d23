(** Proofs about action decoding, warnings, derivative limits (C01-C05, C12, C16). *)
From Coq Require Import String List Bool Arith ZArith Lia Permutation.
From Verif Require Import PyBase Num Arr BaseModel Spec SpecBase NumOrdLemmas ArrLemmas BaseLemmas.
Import ListNotations.

(** ** list_set and dict actions *)

Section Dict.
  Context {T : Type} {N : Num T}.

  Lemma list_set_spec (l : list T) i v :
    i < length l ->
    exists l', list_set l i v = Ok l' /\ length l' = length l /\ nth_error l' i = Some v /\
      forall j, j <> i -> nth_error l' j = nth_error l j.
  Proof.
    revert i; induction l as [|a l IH]; intros i H; simpl in H; [lia|].
    destruct i as [|i].
    - exists (v :: l). simpl. repeat split. intros [|j]; simpl; congruence.
    - destruct (IH i) as (l' & E & Len & At & Other); [lia|].
      exists (a :: l'). simpl. rewrite E. simpl. repeat split; auto.
      intros [|j] Hj; simpl; [reflexivity|]. apply Other. congruence.
  Qed.

  Lemma list_ext (l m : list T) :
    length l = length m -> (forall i, nth_error l i = nth_error m i) -> l = m.
  Proof.
    revert m; induction l as [|a l IH]; intros [|b m] Len H; simpl in Len; try congruence.
    f_equal.
    - specialize (H 0). simpl in H. congruence.
    - apply IH; [congruence|]. intros i. apply (H (S i)).
  Qed.

  Lemma apply_items_spec cmap (items : list (string * T)) dflt :
    cmap_ok cmap (length dflt) -> NoDup (map fst items) ->
    (forall name v, In (name, v) items -> dict_get name cmap <> None) ->
    exists c, apply_items cmap items (A1 dflt) = Ok (A1 c) /\ dict_control cmap items dflt c.
  Proof.
    intros [Rng Inj]. revert dflt Rng.
    induction items as [|[name v] items IH]; intros dflt Rng ND Known.
    - exists dflt. split; [reflexivity|]. split; [reflexivity|]. split; [|reflexivity].
      intros ? ? ? [].
    - simpl. inversion ND as [|? ? Nin ND']; subst.
      destruct (dict_get name cmap) as [i|] eqn:Ei;
        [|exfalso; apply (Known name v); [left; reflexivity | assumption]].
      destruct (list_set_spec dflt i v (Rng _ _ Ei)) as (d1 & Es & Len & At & Oth).
      rewrite Es. simpl.
      destruct (IH d1) as (c & Ec & LenC & Val & Dfl).
      { rewrite Len. exact Rng. }
      { exact ND'. }
      { intros n0 v0 Hin. apply (Known n0 v0). right; assumption. }
      exists c. split; [exact Ec|]. split; [congruence|].
      assert (NoOther : forall n' v', In (n', v') items -> dict_get n' cmap <> Some i).
      { intros n' v' Hin E'. assert (n' = name) by (eapply Inj; eauto). subst n'.
        apply Nin. apply in_map_iff. exists (name, v'). auto. }
      split.
      + intros n' v' j [Heq|Hin] Hj.
        * injection Heq as <- <-. assert (j = i) by congruence. subst j.
          rewrite (Dfl i NoOther). exact At.
        * eapply Val; eauto.
      + intros j Hj. rewrite (Dfl j).
        * apply Oth. intros ->. apply (Hj name v); [left; reflexivity | exact Ei].
        * intros n' v' Hin. apply (Hj n' v'). right; assumption.
  Qed.

  Lemma dict_control_unique cmap (items : list (string * T)) dflt c c' :
    dict_control cmap items dflt c -> dict_control cmap items dflt c' -> c = c'.
  Proof.
    intros (L1 & V1 & D1) (L2 & V2 & D2). apply list_ext; [congruence|].
    intros i.
    assert (Dec : (exists name v, In (name, v) items /\ dict_get name cmap = Some i) \/
                  (forall name v, In (name, v) items -> dict_get name cmap <> Some i)).
    { clear. induction items as [|[n v] items [(n' & v' & H & E)|H]].
      - right. intros ? ? [].
      - left. exists n', v'. split; [right|]; assumption.
      - destruct (dict_get n cmap) as [j|] eqn:E.
        + destruct (Nat.eq_dec j i) as [->|Ne].
          * left. exists n, v. split; [left; reflexivity|assumption].
          * right. intros n' v' [Heq|Hin]; [|eauto]. injection Heq as <- <-. congruence.
        + right. intros n' v' [Heq|Hin]; [|eauto]. injection Heq as <- <-. congruence. }
    destruct Dec as [(n & v & Hin & E)|No].
    - rewrite (V1 _ _ _ Hin E), (V2 _ _ _ Hin E). reflexivity.
    - rewrite (D1 i No), (D2 i No). reflexivity.
  Qed.

  Lemma dict_control_perm cmap (items items' : list (string * T)) dflt c :
    Permutation items items' -> dict_control cmap items dflt c -> dict_control cmap items' dflt c.
  Proof.
    intros P (L & V & D). split; [exact L|]. split.
    - intros n v i Hin. apply V. eapply Permutation_in; [apply Permutation_sym, P | exact Hin].
    - intros i H. apply D. intros n v Hin. apply (H n v). eapply Permutation_in; eauto.
  Qed.

  Lemma apply_items_unknown cmap (items : list (string * T)) dflt :
    (forall k i, dict_get k cmap = Some i -> i < length dflt) ->
    (exists name v, In (name, v) items /\ dict_get name cmap = None) ->
    apply_items cmap items (A1 dflt) = Err KeyError.
  Proof.
    revert dflt; induction items as [|[n v] items IH]; intros dflt Rng (name & v0 & Hin & E).
    - destruct Hin.
    - simpl. destruct (dict_get n cmap) as [i|] eqn:Ei; [|reflexivity].
      destruct (list_set_spec dflt i v (Rng _ _ Ei)) as (d1 & Es & Len & _). rewrite Es. simpl.
      apply IH.
      + rewrite Len. exact Rng.
      + destruct Hin as [Heq|Hin]; [injection Heq as -> ->; congruence|]. eauto.
  Qed.

  (** The step only looks at the decoded control. *)
  Lemma entity_step_decode (w : world T) e h a a' :
    decode_action w e a = decode_action w e a' -> entity_step w e h a = entity_step w e h a'.
  Proof. intros H. unfold entity_step. rewrite H. reflexivity. Qed.

  Lemma step_dict (w : world T) e h items cmap dflt :
    e_cmap e = Some cmap -> e_default e = A1 dflt -> cmap_ok cmap (length dflt) ->
    NoDup (map fst items) ->
    (forall name v, In (name, v) items -> dict_get name cmap <> None) ->
    exists c, dict_control cmap items dflt c /\
      entity_step w e h (ADict items) = entity_step w e h (AArr (A1 c)).
  Proof.
    intros M D Ok0 ND Kn. destruct (apply_items_spec cmap items dflt Ok0 ND Kn) as (c & E & S).
    exists c. split; [exact S|]. apply entity_step_decode. simpl. rewrite M, D. exact E.
  Qed.

  Lemma step_dict_unique (w : world T) e h items cmap dflt c :
    e_cmap e = Some cmap -> e_default e = A1 dflt -> cmap_ok cmap (length dflt) ->
    NoDup (map fst items) ->
    (forall name v, In (name, v) items -> dict_get name cmap <> None) ->
    dict_control cmap items dflt c ->
    entity_step w e h (ADict items) = entity_step w e h (AArr (A1 c)).
  Proof.
    intros M D Ok0 ND Kn S.
    destruct (step_dict w e h items cmap dflt M D Ok0 ND Kn) as (c' & S' & E).
    rewrite (dict_control_unique _ _ _ _ _ S S'). exact E.
  Qed.

  Lemma step_dict_perm (w : world T) e h items items' cmap dflt :
    e_cmap e = Some cmap -> e_default e = A1 dflt -> cmap_ok cmap (length dflt) ->
    NoDup (map fst items) ->
    (forall name v, In (name, v) items -> dict_get name cmap <> None) ->
    Permutation items items' ->
    entity_step w e h (ADict items) = entity_step w e h (ADict items').
  Proof.
    intros M D Ok0 ND Kn P.
    destruct (step_dict w e h items cmap dflt M D Ok0 ND Kn) as (c & S & E). rewrite E.
    symmetry. eapply step_dict_unique; eauto.
    - eapply Permutation_NoDup; [apply Permutation_map, P | exact ND].
    - intros n v Hin. apply (Kn n v). eapply Permutation_in; [apply Permutation_sym, P | exact Hin].
    - eapply dict_control_perm; eauto.
  Qed.

  Lemma step_dict_unknown (w : world T) e h items cmap dflt :
    e_cmap e = Some cmap -> e_default e = A1 dflt -> cmap_ok cmap (length dflt) ->
    (exists name v, In (name, v) items /\ dict_get name cmap = None) ->
    entity_step w e h (ADict items) = {| o_entity := e; o_warned := false; o_res := Err KeyError |}.
  Proof.
    intros M D [Rng _] Ex. unfold entity_step. simpl. rewrite M, D.
    rewrite apply_items_unknown; auto.
  Qed.
End Dict.

(** ** Warnings and saturation *)

Section Warn.
  Context {T : Type} {N : Num T}.

  Lemma any_spec (b : arr bool) : any b = true <-> exists i, anth b i = Some true.
  Proof.
    destruct b as [x|l]; simpl.
    - split.
      + intros ->. exists 0. reflexivity.
      + intros [[|i] H]; congruence.
    - rewrite existsb_exists. split.
      + intros (x & Hin & ->). apply In_nth_error in Hin. exact Hin.
      + intros [i H]. exists true. split; [eapply nth_error_In; eauto | reflexivity].
  Qed.

  Lemma anth_bmap2_fits {C} (f : T -> T -> C) c lim :
    fits lim c ->
    exists r, bmap2 f c lim = Ok r /\
      forall i, anth r i = match anth c i, bnth lim i with
                           | Some x, Some y => Some (f x y)
                           | _, _ => None
                           end.
  Proof.
    destruct lim as [y|m], c as [x|l]; simpl; intros F.
    - exists (A0 (f x y)). split; [reflexivity|]. intros [|i]; reflexivity.
    - exists (A1 (map (fun x => f x y) l)). split; [reflexivity|].
      intros i. simpl. rewrite map_nth_error'. destruct (nth_error l i); reflexivity.
    - destruct F.
    - exists (A1 (zipw f l m)). rewrite F, Nat.eqb_refl. split; [reflexivity|].
      intros i. simpl. rewrite zipw_nth.
      destruct (nth_error l i) eqn:E; [|reflexivity].
      destruct (Nat.eq_dec (length m) 1) as [E1|E1].
      + destruct (len1 m E1) as [y ->]. rewrite E1 in F. symmetry in F.
        destruct (len1 l F) as [x ->]. destruct i as [|i]; [reflexivity|].
        destruct i; discriminate.
      + pose proof (bnth_A1 m i E1) as Q. simpl in Q. rewrite Q. reflexivity.
  Qed.

  Lemma out_of_bounds_spec c cmin cmax :
    fits cmin c -> fits cmax c ->
    exists b, out_of_bounds c cmin cmax = Ok b /\ (b = true <-> exceeds cmin cmax c).
  Proof.
    intros F1 F2. unfold out_of_bounds.
    destruct (anth_bmap2_fits nltb c cmin F1) as (lo & E1 & At1).
    destruct (anth_bmap2_fits (fun x m => nltb m x) c cmax F2) as (hi & E2 & At2).
    rewrite E1, E2. simpl.
    assert (L : any lo = true <-> exists i x l, anth c i = Some x /\ bnth cmin i = Some l /\ nltb x l = true).
    { rewrite any_spec. split.
      - intros [i H]. rewrite At1 in H. destruct (anth c i) eqn:Ea; [|discriminate].
        destruct (bnth cmin i) eqn:Eb; [|discriminate]. exists i, t, t0. repeat split; auto. congruence.
      - intros (i & x & l & Ha & Hb & H). exists i. rewrite At1, Ha, Hb. congruence. }
    assert (Hh : any hi = true <-> exists i x l, anth c i = Some x /\ bnth cmax i = Some l /\ nltb l x = true).
    { rewrite any_spec. split.
      - intros [i H]. rewrite At2 in H. destruct (anth c i) eqn:Ea; [|discriminate].
        destruct (bnth cmax i) eqn:Eb; [|discriminate]. exists i, t, t0. repeat split; auto. congruence.
      - intros (i & x & l & Ha & Hb & H). exists i. rewrite At2, Ha, Hb. congruence. }
    assert (X : exceeds cmin cmax c <-> any lo = true \/ any hi = true).
    { rewrite L, Hh. unfold exceeds. split.
      - intros (i & x & Ha & [(l & Hl & Q)|(l & Hl & Q)]); [left|right]; exists i, x, l; auto.
      - intros [(i & x & l & Ha & Hl & Q)|(i & x & l & Ha & Hl & Q)]; exists i, x; split; auto; [left|right]; eauto. }
    destruct (any lo) eqn:Al.
    - exists true. split; [reflexivity|]. rewrite X. intuition.
    - exists (any hi). split; [reflexivity|]. rewrite X. intuition congruence.
  Qed.

  Lemma clip_fits c cmin cmax :
    fits cmin c -> fits cmax c ->
    exists c', np_clip c cmin cmax = Ok c' /\
      forall i, anth c' i = match anth c i, bnth cmin i, bnth cmax i with
                            | Some x, Some l, Some h => Some (clip1 x l h)
                            | _, _, _ => None
                            end.
  Proof.
    intros F1 F2. unfold np_clip.
    destruct (anth_bmap2_fits np_max_clip c cmin F1) as (m & E1 & At1). rewrite E1. simpl.
    assert (F2' : fits cmax m).
    { destruct cmax as [y|q]; [exact I|]. destruct c as [x|l]; [destruct F2|]. simpl in F2.
      destruct cmin as [z|p]; simpl in E1.
      - injection E1 as <-. simpl. rewrite map_length. exact F2.
      - simpl in F1. rewrite F1, Nat.eqb_refl in E1. injection E1 as <-. simpl.
        rewrite zipw_length by congruence. exact F2. }
    destruct (anth_bmap2_fits np_min_clip m cmax F2') as (r & E2 & At2).
    exists r. split; [exact E2|]. intros i. rewrite At2, At1.
    destruct (anth c i), (bnth cmin i), (bnth cmax i); reflexivity.
  Qed.

  Lemma warned_iff (w : world T) e h c :
    fits (e_cmin e) c -> fits (e_cmax e) c ->
    (o_warned (entity_step w e h (AArr c)) = true <-> exceeds (e_cmin e) (e_cmax e) c).
  Proof.
    intros F1 F2. destruct (out_of_bounds_spec _ _ _ F1 F2) as (b & E & B).
    destruct (clip_fits _ _ _ F1 F2) as (c' & E2 & _).
    unfold entity_step. simpl. rewrite E, E2.
    destruct (dyn_step _ _ _ _ _ _) as [tr [[s sd]|]]; simpl; exact B.
  Qed.

  Lemma anth_bnth {A} (a : arr A) i x : anth a i = Some x -> bnth a i = Some x.
  Proof.
    destruct a as [y|l]; simpl.
    - destruct i; congruence.
    - destruct l as [|y [|z l]]; auto. destruct i as [|[|i]]; simpl; congruence.
  Qed.

  Context {O : NumOrd T}.

  Lemma arr_eq_anth c c' :
    (forall i, anth c i = None <-> anth c' i = None) ->
    (match c, c' with A0 _, A0 _ | A1 _, A1 _ => True | _, _ => False end) ->
    (forall i x y, anth c i = Some x -> anth c' i = Some y -> neqb x y = true) -> arr_eq c c'.
  Proof.
    intros HN HS HE. destruct c as [x|l], c' as [y|m]; try contradiction; simpl.
    - apply (HE 0); reflexivity.
    - clear HS. revert m HN HE. induction l as [|a l IH]; intros [|b m] HN HE.
      + constructor.
      + exfalso. specialize (HN 0). simpl in HN. destruct HN as [HN _]. discriminate (HN eq_refl).
      + exfalso. specialize (HN 0). simpl in HN. destruct HN as [_ HN]. discriminate (HN eq_refl).
      + constructor.
        * apply (HE 0); reflexivity.
        * apply IH.
          -- intros i. apply (HN (S i)).
          -- intros i. apply (HE (S i)).
  Qed.

  (** In-range controls: the clipped control is numerically the given one. *)
  Lemma clip_inside c cmin cmax c' :
    fits cmin c -> fits cmax c -> np_clip c cmin cmax = Ok c' ->
    (forall i x l h, anth c i = Some x -> bnth cmin i = Some l -> bnth cmax i = Some h ->
       nleb l x = true /\ nleb x h = true) ->
    arr_eq c' c.
  Proof.
    intros F1 F2 E In. destruct (clip_fits _ _ _ F1 F2) as (c'' & E2 & At).
    assert (c'' = c') by congruence. subst c''.
    assert (Dom : forall i x, anth c i = Some x -> exists l h, bnth cmin i = Some l /\ bnth cmax i = Some h).
    { intros i x Hx.
      assert (G : forall lim, fits lim c -> exists l, bnth lim i = Some l).
      { intros [y|m] F; [exists y; reflexivity|]. destruct c as [z|q]; [destruct F|].
        simpl in F, Hx. assert (i < length m) by (rewrite F; apply nth_error_Some; congruence).
        destruct (Nat.eq_dec (length m) 1) as [E1|E1].
        - destruct (len1 m E1) as [y ->]. exists y. reflexivity.
        - rewrite bnth_A1 by assumption. destruct (nth_error m i) eqn:Em; [eauto|].
          apply nth_error_None in Em. lia. }
      destruct (G _ F1) as [l Hl], (G _ F2) as [h Hh]. eauto. }
    apply arr_eq_anth.
    - intros i. rewrite At. destruct (anth c i) as [x|] eqn:Ea.
      + destruct (Dom _ _ Ea) as (l & h & -> & ->). split; discriminate.
      + split; reflexivity.
    - destruct c as [x|l]; destruct cmin as [y|m], cmax as [z|q]; try (destruct F1; fail); try (destruct F2; fail);
        unfold np_clip, bind, bmap2 in E; simpl in F1, F2.
      + injection E as <-. exact I.
      + injection E as <-. exact I.
      + rewrite map_length, <- F2, Nat.eqb_refl in E. injection E as <-. exact I.
      + rewrite F1, Nat.eqb_refl in E. injection E as <-. exact I.
      + rewrite F1, Nat.eqb_refl in E. rewrite zipw_length in E by congruence.
        rewrite <- F2, Nat.eqb_refl in E. injection E as <-. exact I.
    - intros i x y Hx Hy. rewrite At, Hy in Hx.
      destruct (Dom _ _ Hy) as (l & h & Hl & Hh). rewrite Hl, Hh in Hx. injection Hx as <-.
      destruct (In _ _ _ _ Hy Hl Hh). apply clip1_inside; assumption.
  Qed.

  Lemma saturation (w : world T) e h a raw' :
    limits_ok (e_cmin e) (e_cmax e) ->
    (forall t x u, in_limits (e_cmin e) (e_cmax e) u -> d_raw (e_dyn e) t x u = raw' t x u) ->
    same_outcome (entity_step w (set_raw e raw') h a) (entity_step w e h a).
  Proof.
    intros L H. apply entity_step_raw. intros c c' t x _ Hc. apply H.
    eapply clip_in_limits; eauto.
  Qed.

  Lemma passthrough (w : world T) e h c raw' :
    fits (e_cmin e) c -> fits (e_cmax e) c ->
    (forall i x l u, anth c i = Some x -> bnth (e_cmin e) i = Some l -> bnth (e_cmax e) i = Some u ->
       nleb l x = true /\ nleb x u = true) ->
    (forall t x u, arr_eq u c -> d_raw (e_dyn e) t x u = raw' t x u) ->
    same_outcome (entity_step w (set_raw e raw') h (AArr c)) (entity_step w e h (AArr c)).
  Proof.
    intros F1 F2 In H. apply entity_step_raw. intros c0 c' t x E Hc. simpl in E. injection E as <-.
    apply H. apply (clip_inside c (e_cmin e) (e_cmax e) c'); assumption.
  Qed.
End Warn.

(** ** Derivative limits *)

Section Deriv.
  Context {T : Type} {N : Num T}.

  Definition limited_dot (smin smax sdmin sdmax s r : T) : T :=
    let c := clip1 r sdmin sdmax in
    if nleb smax s then clip1 c nninf n0
    else if nleb s smin then clip1 c n0 npinf else c.

  Lemma compute_state_dot_at (d : dyn T) t s u r :
    compute_state_dot d t s u = Ok r ->
    exists raw, d_raw d t s u = Ok raw /\
    forall i y, bnth r i = Some y ->
      exists x ri lo hi slo shi,
        bnth s i = Some x /\ bnth raw i = Some ri /\ bnth (d_min d) i = Some lo /\
        bnth (d_max d) i = Some hi /\ bnth (d_sdmin d) i = Some slo /\ bnth (d_sdmax d) i = Some shi /\
        y = limited_dot lo hi slo shi x ri.
  Proof.
    unfold compute_state_dot, clip_state_dot_direct, clip_state_dot_by_state_limits.
    destruct (d_raw d t s u) as [raw|]; [|discriminate]. simpl.
    destruct (np_clip raw (d_sdmin d) (d_sdmax d)) as [c|] eqn:E1; [|discriminate]. simpl.
    destruct (bmap2 nleb s (d_min d)) as [lw|] eqn:E2; [|discriminate]. simpl.
    destruct (bmap2 (fun x m => nleb m x) s (d_max d)) as [up|] eqn:E3; [|discriminate]. simpl.
    destruct (np_clip c (A0 n0) (A0 npinf)) as [lc|] eqn:E4; [|discriminate]. simpl.
    destruct (np_clip c (A0 nninf) (A0 n0)) as [uc|] eqn:E5; [|discriminate]. simpl.
    destruct (np_where lw lc c) as [s1|] eqn:E6; [|discriminate]. simpl.
    intros E7. exists raw. split; [reflexivity|]. intros i y Hy.
    rewrite (bnth_where _ _ _ _ i E7), (bnth_where _ _ _ _ i E6), (bnth_clip _ _ _ _ i E5),
      (bnth_clip _ _ _ _ i E4), (bnth_bmap2 _ _ _ _ i E3), (bnth_bmap2 _ _ _ _ i E2),
      (bnth_clip _ _ _ _ i E1) in Hy.
    destruct (bnth s i) as [x|]; [|discriminate].
    destruct (bnth (d_max d) i) as [hi|]; [|discriminate].
    destruct (bnth raw i) as [ri|]; [|discriminate].
    destruct (bnth (d_sdmin d) i) as [slo|]; [|discriminate].
    destruct (bnth (d_sdmax d) i) as [shi|]; [|discriminate].
    destruct (bnth (d_min d) i) as [lo|]; [|discriminate].
    exists x, ri, lo, hi, slo, shi. repeat split.
    unfold limited_dot. simpl in Hy.
    destruct (nleb hi x); [congruence|]. destruct (nleb x lo); congruence.
  Qed.

  Context {O : NumOrd T}.

  Lemma pinf_not_nan : nisnan npinf = false.
  Proof. pose proof (leb_pinf n0 n0_not_nan) as H. apply leb_not_nan in H. tauto. Qed.
  Lemma ninf_not_nan : nisnan nninf = false.
  Proof. pose proof (leb_ninf n0 n0_not_nan) as H. apply leb_not_nan in H. tauto. Qed.

  Lemma limited_upper lo hi slo shi x r :
    nleb hi x = true ->
    let y := limited_dot lo hi slo shi x r in nisnan y = true \/ nleb y n0 = true.
  Proof.
    intros H. unfold limited_dot. rewrite H.
    destruct (clip1_bounds (clip1 r slo shi) nninf n0 (leb_ninf _ n0_not_nan)); tauto.
  Qed.

  Lemma limited_lower lo hi slo shi x r :
    nleb x lo = true -> nleb hi x = false ->
    let y := limited_dot lo hi slo shi x r in nisnan y = true \/ nleb n0 y = true.
  Proof.
    intros H H'. unfold limited_dot. rewrite H', H.
    destruct (clip1_bounds (clip1 r slo shi) n0 npinf (leb_pinf _ n0_not_nan)); tauto.
  Qed.

  Lemma clip1_between a b x lo hi :
    nleb lo hi = true -> nleb a b = true -> nleb lo b = true -> nleb a hi = true ->
    nleb a x = true -> nleb x b = true ->
    nleb a (clip1 x lo hi) = true /\ nleb (clip1 x lo hi) b = true.
  Proof.
    intros L AB LB AH AX XB.
    destruct (leb_not_nan _ _ L) as [Nl Nh]. destruct (leb_not_nan _ _ AX) as [Na Nx].
    unfold clip1, np_max_clip, np_min_clip. rewrite Nx.
    destruct (nltb lo x) eqn:E1.
    - rewrite Nx. destruct (nltb x hi) eqn:E2; [split; assumption|].
      split; [assumption|]. eapply leb_trans; [|exact XB]. apply nltb_leb; assumption.
    - rewrite Nl. assert (XL : nleb x lo = true) by (apply nltb_leb; assumption).
      destruct (nltb lo hi) eqn:E2.
      + split; [eapply leb_trans; eassumption | assumption].
      + assert (HL : nleb hi lo = true) by (apply nltb_leb; assumption).
        split; [assumption | eapply leb_trans; eassumption].
  Qed.

  Lemma limited_range lo hi slo shi x r :
    nleb slo n0 = true -> nleb n0 shi = true ->
    let y := limited_dot lo hi slo shi x r in
    nisnan y = true \/ (nleb slo y = true /\ nleb y shi = true).
  Proof.
    intros A B y. subst y.
    assert (S : nleb slo shi = true) by (eapply leb_trans; eassumption).
    destruct (leb_not_nan _ _ A) as [Ns _]. destruct (leb_not_nan _ _ B) as [_ Nsh].
    destruct (clip1_bounds r slo shi S) as [Nc|[C1 C2]].
    - left. unfold limited_dot.
      destruct (nleb hi x); [rewrite clip1_nan_iff; [assumption|apply leb_ninf, n0_not_nan]|].
      destruct (nleb x lo); [rewrite clip1_nan_iff; [assumption|apply leb_pinf, n0_not_nan]|assumption].
    - right. unfold limited_dot. destruct (nleb hi x).
      + apply clip1_between; auto. apply leb_ninf, n0_not_nan. apply leb_ninf; assumption.
      + destruct (nleb x lo); [|split; assumption].
        apply clip1_between; auto. apply leb_pinf, n0_not_nan. apply leb_pinf; assumption.
  Qed.

  Lemma eqb_trans a b c : neqb a b = true -> neqb b c = true -> neqb a c = true.
  Proof.
    rewrite !eqb_leb, !andb_true_iff. intros [A1 A2] [B1 B2].
    split; eapply leb_trans; eassumption.
  Qed.

  Lemma limited_same lo hi slo shi x r :
    nleb slo r = true -> nleb r shi = true ->
    (nleb x lo = true -> nleb n0 r = true) -> (nleb hi x = true -> nleb r n0 = true) ->
    neqb (limited_dot lo hi slo shi x r) r = true.
  Proof.
    intros A B L U. pose proof (clip1_inside r slo shi A B) as E.
    assert (E' := E). rewrite eqb_leb, andb_true_iff in E'. destruct E' as [E1 E2].
    destruct (leb_not_nan _ _ E1) as [Nc Nr].
    unfold limited_dot. destruct (nleb hi x).
    - specialize (U eq_refl). eapply eqb_trans; [|exact E].
      apply clip1_inside; [apply leb_ninf; assumption | eapply leb_trans; eassumption].
    - destruct (nleb x lo); [|exact E].
      specialize (L eq_refl). eapply eqb_trans; [|exact E].
      apply clip1_inside; [eapply leb_trans; eassumption | apply leb_pinf; assumption].
  Qed.
End Deriv.
