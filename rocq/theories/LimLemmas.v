(** The limited derivative and an Euler step, computed on lists. *)
From Coq Require Import String List Bool Arith ZArith Lia Reals Lra.
From Flocq Require Import Core.Core.
From Verif Require Import PyBase Num Arr BaseModel Spec SpecBase XReal NumOrdLemmas ArrLemmas BaseLemmas
  BaseLemmas2 BaseLemmas3 BaseLemmas4 WrapLemmas XTac SpecWrap SpecRk SpecCwh RkLemmas CwhLemmas.
Import List ListNotations.

Definition expand {A} (n : nat) (a : arr A) : list A :=
  match a with A0 x => repeat x n | A1 l => l end.
Definition afits {A} (n : nat) (a : arr A) : Prop :=
  match a with A0 _ => True | A1 m => length m = n end.

Lemma zipw_repeat {A B C} (f : A -> B -> C) l y : zipw f l (repeat y (length l)) = map (fun x => f x y) l.
Proof. induction l; simpl; auto. f_equal; auto. Qed.
Lemma bmap2_expand {A B C} (f : A -> B -> C) l a : afits (length l) a ->
  bmap2 f (A1 l) a = Ok (A1 (zipw f l (expand (length l) a))).
Proof.
  destruct a as [y|m]; simpl; intros H; [rewrite zipw_repeat; reflexivity|].
  rewrite H, Nat.eqb_refl. reflexivity.
Qed.
Lemma expand_length {A} n (a : arr A) : afits n a -> length (expand n a) = n.
Proof. destruct a; simpl; auto. intros _. apply repeat_length. Qed.

Section G.
  Context {T : Type} {N : Num T}.

  Fixpoint clip_list (l lo hi : list T) : list T :=
    match l, lo, hi with
    | x :: l', a :: lo', b :: hi' => clip1 x a b :: clip_list l' lo' hi'
    | _, _, _ => []
    end.
  Lemma clip_list_length l lo hi : length lo = length l -> length hi = length l ->
    length (clip_list l lo hi) = length l.
  Proof.
    revert lo hi. induction l as [|x l IH]; intros [|a lo] [|b hi] L1 L2; try discriminate; auto.
    simpl. f_equal. apply IH; simpl in *; lia.
  Qed.
  Lemma np_clip_list l lo hi : afits (length l) lo -> afits (length l) hi ->
    np_clip (A1 l) lo hi = Ok (A1 (clip_list l (expand (length l) lo) (expand (length l) hi))).
  Proof.
    intros H1 H2. unfold np_clip. rewrite bmap2_expand by auto. cbn [bind].
    assert (L : length (zipw np_max_clip l (expand (length l) lo)) = length l).
    { rewrite zipw_length; auto. rewrite expand_length; auto. }
    rewrite bmap2_expand by (rewrite L; auto). rewrite L. do 2 f_equal.
    pose proof (expand_length _ _ H1) as L1. pose proof (expand_length _ _ H2) as L2. clear L H1 H2.
    revert L1 L2. generalize (expand (length l) lo) (expand (length l) hi).
    induction l as [|x l IH]; intros [|a m] [|b m'] L1 L2; try discriminate; auto.
    simpl. f_equal. apply IH; simpl in *; lia.
  Qed.

  Fixpoint lim_list (lo hi slo shi s r : list T) : list T :=
    match lo, hi, slo, shi, s, r with
    | a :: lo', b :: hi', c :: slo', d :: shi', x :: s', y :: r' =>
        limited_dot a b c d x y :: lim_list lo' hi' slo' shi' s' r'
    | _, _, _, _, _, _ => []
    end.

  Lemma csd_list (d : dyn T) t s u r : length r = length s ->
    afits (length s) (d_min d) -> afits (length s) (d_max d) ->
    afits (length s) (d_sdmin d) -> afits (length s) (d_sdmax d) ->
    d_raw d t (A1 s) u = Ok (A1 r) ->
    let n := length s in
    compute_state_dot d t (A1 s) u =
    Ok (A1 (lim_list (expand n (d_min d)) (expand n (d_max d)) (expand n (d_sdmin d)) (expand n (d_sdmax d)) s r)).
  Proof.
    intros L H1 H2 H3 H4 E n. unfold compute_state_dot. rewrite E. cbn [bind].
    unfold clip_state_dot_direct. rewrite np_clip_list by (rewrite L; auto). cbn [bind].
    unfold clip_state_dot_by_state_limits. rewrite !(bmap2_expand _ s) by auto. cbn [bind].
    rewrite L. fold n in H1, H2, H3, H4 |- *. assert (Ln : length s = n) by reflexivity. clearbody n.
    pose proof (expand_length _ _ H1) as L1. pose proof (expand_length _ _ H2) as L2.
    pose proof (expand_length _ _ H3) as L3. pose proof (expand_length _ _ H4) as L4.
    revert L1 L2 L3 L4. generalize (expand n (d_min d)) (expand n (d_max d)) (expand n (d_sdmin d)) (expand n (d_sdmax d)).
    intros lo hi slo shi L1 L2 L3 L4.
    assert (Lc : length (clip_list r slo shi) = n).
    { clear - L L3 L4 Ln. subst n. rewrite <- L in *. clear L. revert slo shi L3 L4.
      induction r as [|x r IH]; intros [|a m] [|b m'] L1 L2; try discriminate; auto. simpl. f_equal. apply IH; simpl in *; lia. }
    rewrite !np_clip_list by exact I. cbn [bind]. unfold expand. rewrite Lc.
    set (lc := clip_list (clip_list r slo shi) (repeat n0 n) (repeat npinf n)).
    set (uc := clip_list (clip_list r slo shi) (repeat nninf n) (repeat n0 n)).
    assert (Ll : length lc = n).
    { unfold lc. clear - Lc. revert Lc. generalize (clip_list r slo shi) n. clear. 
      induction l as [|x l IH]; intros [|n] H; try discriminate; auto. simpl. f_equal. apply IH. simpl in H; lia. }
    assert (Lu : length uc = n).
    { unfold uc. clear - Lc. revert Lc. generalize (clip_list r slo shi) n. clear. 
      induction l as [|x l IH]; intros [|n] H; try discriminate; auto. simpl. f_equal. apply IH. simpl in H; lia. }
    assert (W : forall (b : list bool) (x y : list T), length b = n -> length x = n -> length y = n ->
        np_where (A1 b) (A1 x) (A1 y) = Ok (A1 (zipw (fun (c : bool) p => if c then fst p else snd p) b (zipw pair x y)))).
    { intros b x y B1 B2 B3. unfold np_where. simpl. rewrite B2, B3, Nat.eqb_refl. cbn [bind]. simpl.
      rewrite zipw_length by congruence. rewrite B1, B2, Nat.eqb_refl. reflexivity. }
    rewrite W; [|rewrite zipw_length; congruence|exact Ll|exact Lc]. cbn [bind].
    rewrite W; [|rewrite zipw_length; congruence|exact Lu|].
    2:{ rewrite zipw_length; rewrite zipw_length; rewrite ?zipw_length; congruence. }
    do 2 f_equal. subst lc uc. clear - L L1 L2 L3 L4 Ln. subst n. rename L into L0.
    revert lo hi slo shi r L0 L1 L2 L3 L4. induction s as [|x s IH];
      intros [|a lo] [|b hi] [|c slo] [|d shi] [|y r] L0 L1 L2 L3 L4; try discriminate; auto.
    simpl. rewrite (IH lo hi slo shi r) by (simpl in *; lia). f_equal.
  Qed.

  (** Wrapping on lists; a NaN center leaves the element alone. *)
  Fixpoint wrap_list (c s : list T) : list T :=
    match c, s with
    | a :: c', x :: s' => (if nisnan a then x else wrap1 a x) :: wrap_list c' s'
    | _, _ => []
    end.
  Lemma wrap_angles_list (d : dyn T) c s : d_wrap d = Some (A1 c) -> length c = length s ->
    wrap_angles d (A1 s) = Ok (A1 (wrap_list c s)).
  Proof.
    intros E L. unfold wrap_angles. rewrite E. simpl. rewrite L, Nat.eqb_refl. cbn [bind].
    unfold np_where. simpl. rewrite zipw_length by congruence. rewrite Nat.eqb_refl. cbn [bind]. simpl.
    rewrite map_length, zipw_length; [|rewrite zipw_length; congruence].
    rewrite zipw_length by congruence. rewrite L, Nat.eqb_refl.
    do 2 f_equal. clear E; revert c L. induction s as [|x s IH]; intros [|a c] L; try discriminate; auto.
    simpl. f_equal; [destruct (nisnan a); reflexivity|]. apply IH. simpl in L; lia.
  Qed.

  (** The derivative reported after a step comes out of [compute_state_dot]. *)
  Lemma run_config (w : world T) acts : forall e e', run w e acts = Ok e' -> same_config e' e.
  Proof.
    induction acts as [|[h a] acts IH]; intros e e' H; cbn [run] in H.
    - injection H as <-. repeat split.
    - destruct (o_res _); [|discriminate]. cbn [bind] in H.
      eapply same_config_trans; [apply (IH _ _ H)|apply entity_step_config].
  Qed.
  Lemma step_sdot (w : world T) e h a : o_res (entity_step w e h a) = Ok tt ->
    exists t s u, compute_state_dot (e_dyn e) t s u = Ok (e_sdot (o_entity (entity_step w e h a))).
  Proof.
    intros H. destruct (entity_step_ok _ _ _ _ H) as (c & c' & tr & _ & _ & D & _).
    destruct (dyn_step_inv _ _ _ _ _ _ _ _ _ D) as (n & m & S & _).
    set (r := e_sdot _) in *. clearbody r. clear D H. revert S. unfold dyn__step.
    destruct (_ =? _)%string; [|destruct (_ =? _)%string; [|destruct (_ =? _)%string]].
    - destruct (w_solve_ivp _ _ _ _ _) as [sol|]; [|discriminate]. destruct (sol_y sol); [discriminate|].
      destruct (last_row _) as [x|]; [|discriminate]. cbn [bind].
      destruct (compute_state_dot _ _ _ _) as [q0|] eqn:E; [|discriminate]. cbn [bind]. intros Q.
      assert (q0 = r) by congruence. subst. eauto.
    - destruct (negb _); [discriminate|]. destruct (py_assert _); [|discriminate]. cbn [bind].
      destruct (w_odeint _ _ _ _) as [sol|]; [|discriminate]. cbn [bind].
      destruct (last_row _) as [x|]; [|discriminate]. cbn [bind].
      destruct (compute_state_dot _ _ _ _) as [q0|] eqn:E; [|discriminate]. cbn [bind]. intros Q.
      assert (q0 = r) by congruence. subst. eauto.
    - destruct (py_assert _); [|discriminate]. cbn [bind].
      destruct (compute_state_dot _ _ _ _) as [q0|] eqn:E; [|discriminate]. cbn [bind].
      destruct (bmap2 _ _ _); [|discriminate]. cbn [bind]. intros Q.
      assert (q0 = r) by congruence. subst. eauto.
    - discriminate.
  Qed.

  Lemma run_sdot_limits {O : NumOrd T} (w : world T) e acts e' : acts <> [] -> run w e acts = Ok e' ->
    forall i y lo hi slo shi, bnth (e_sdot e') i = Some y ->
      bnth (d_min (e_dyn e)) i = Some lo -> bnth (d_max (e_dyn e)) i = Some hi ->
      bnth (d_sdmin (e_dyn e)) i = Some slo -> bnth (d_sdmax (e_dyn e)) i = Some shi ->
      nleb slo n0 = true -> nleb n0 shi = true ->
      nisnan y = true \/ (nleb slo y = true /\ nleb y shi = true).
  Proof.
    intros Ne H i y lo hi slo shi Hy H1 H2 H3 H4 Z1 Z2.
    destruct (run_last _ _ _ _ Ne H) as (e1 & h & a & (Cd & _) & R & ->).
    destruct (step_sdot _ _ _ _ R) as (t & s & u & C). rewrite <- Cd in H1, H2, H3, H4.
    destruct (compute_state_dot_at _ _ _ _ _ C) as (raw & Er & At).
    destruct (At i y Hy) as (x & r & lo' & hi' & slo' & shi' & A1' & A2 & _).
    eapply (derivative_limits (e_dyn e1) t s u _ raw C Er i); eassumption.
  Qed.

  (** Two states on which the derivative, and the state after limiting and wrapping,
      coincide, are indistinguishable from the first Euler step on. *)
  Lemma euler_same (w : world T) (e : entity T) s s' acts lo hi c :
    d_method (e_dyn e) = "Euler"%string ->
    e_state e = A1 s -> length s' = length s ->
    d_min (e_dyn e) = A1 lo -> d_max (e_dyn e) = A1 hi -> d_wrap (e_dyn e) = Some (A1 c) ->
    length lo = length s -> length hi = length s -> length c = length s ->
    (forall t u, compute_state_dot (e_dyn e) t (A1 s') u = compute_state_dot (e_dyn e) t (A1 s) u) ->
    (forall t u r, compute_state_dot (e_dyn e) t (A1 s) u = Ok r -> exists sd, r = A1 sd /\ length sd = length s) ->
    (forall h sd, length sd = length s ->
       wrap_list c (clip_list (zipw nadd s' (map (nmul h) sd)) lo hi) =
       wrap_list c (clip_list (zipw nadd s (map (nmul h) sd)) lo hi)) ->
    acts <> [] -> run w (set_state e (A1 s')) acts = run w e acts.
  Proof.
    intros Me Es Ls D1 D2 D3 L1 L2 L3 Csd Shape Wr Ne.
    destruct acts as [|[h a] acts]; [congruence|]. clear Ne. cbn [run].
    assert (Q : forall u, dyn_step w (e_dyn e) (e_traj e) h (A1 s') u = dyn_step w (e_dyn e) (e_traj e) h (A1 s) u).
    { intros u. unfold dyn_step, dyn__step. rewrite Me. cbn [String.eqb Ascii.eqb Bool.eqb].
      destruct (py_assert _); [|reflexivity]. cbn [bind]. rewrite Csd.
      destruct (compute_state_dot (e_dyn e) n0 (A1 s) u) as [r|] eqn:E; [|reflexivity]. cbn [bind].
      destruct (Shape _ _ _ E) as (sd & -> & Ld). cbn [amap].
      assert (Lz : forall x : list T, length x = length s -> length (zipw nadd x (map (nmul h) sd)) = length s).
      { intros x Lx. rewrite zipw_length; rewrite ?map_length; congruence. }
      rewrite !bmap2_expand by (simpl; rewrite map_length; congruence). cbn [bind expand].
      rewrite D1, D2. rewrite !np_clip_list by (simpl; rewrite Lz; congruence). cbn [bind expand].
      rewrite !(wrap_angles_list (e_dyn e) c);
        try exact D3; try (rewrite clip_list_length; rewrite ?Lz; congruence).
      rewrite Wr by exact Ld. reflexivity. }
    assert (S : o_res (entity_step w (set_state e (A1 s')) h a) = o_res (entity_step w e h a) /\
                (o_res (entity_step w e h a) = Ok tt ->
                 o_entity (entity_step w (set_state e (A1 s')) h a) = o_entity (entity_step w e h a))).
    { unfold entity_step. cbn [set_state with_step e_cmin e_cmax e_dyn e_state e_traj].
      change (decode_action w (set_state e (A1 s')) a) with (decode_action w e a).
      destruct (decode_action w e a) as [u|]; [|cbn; split; [reflexivity|discriminate]].
      destruct (out_of_bounds u _ _) as [b|]; [|cbn; split; [reflexivity|discriminate]].
      destruct (np_clip u _ _) as [u'|]; [|cbn; split; [reflexivity|discriminate]].
      rewrite Q, Es. destruct (dyn_step w (e_dyn e) (e_traj e) h (A1 s) u') as [tr [[s1 sd1]|]]; cbn;
        split; reflexivity || discriminate || (intros; reflexivity). }
    destruct S as [S1 S2]. rewrite S1. destruct (o_res (entity_step w e h a)) as [[]|]; [|reflexivity].
    cbn [bind]. rewrite S2; auto.
  Qed.

  (** An Euler step on lists. *)
  Lemma euler_list (w : world T) (e : entity T) h s l sd c :
    d_method (e_dyn e) = "Euler"%string -> (d_samples (e_dyn e) <= 0)%Z ->
    e_state e = A1 s -> fits (e_cmin e) (A1 l) -> fits (e_cmax e) (A1 l) ->
    compute_state_dot (e_dyn e) n0 (A1 s)
      (A1 (clip_list l (expand (length l) (e_cmin e)) (expand (length l) (e_cmax e)))) = Ok (A1 sd) ->
    length sd = length s -> afits (length s) (d_min (e_dyn e)) -> afits (length s) (d_max (e_dyn e)) ->
    d_wrap (e_dyn e) = Some (A1 c) -> length c = length s ->
    let o := entity_step w e h (AArr (A1 l)) in
    let n := length s in
    o_res o = Ok tt /\ e_sdot (o_entity o) = A1 sd /\
    e_state (o_entity o) = A1 (wrap_list c (clip_list (zipw nadd s (map (nmul h) sd))
      (expand n (d_min (e_dyn e))) (expand n (d_max (e_dyn e))))).
  Proof.
    intros Me Sa Es F1 F2 Cd Ld M1 M2 W Lc o n. subst o. unfold entity_step. cbn [decode_action].
    destruct (out_of_bounds_spec (A1 l) _ _ F1 F2) as (b & Eb & _). rewrite Eb.
    rewrite np_clip_list; [|destruct (e_cmin e); simpl in *; auto|destruct (e_cmax e); simpl in *; auto].
    unfold dyn_step, dyn__step. rewrite Me. cbn [String.eqb Ascii.eqb Bool.eqb].
    rewrite (proj2 (Z.leb_le _ _) Sa). cbn [py_assert bind]. rewrite Es, Cd. cbn [bind amap].
    rewrite (bmap2_expand nadd s (A1 (map (nmul h) sd))) by (simpl; rewrite map_length; exact Ld). cbn [bind expand].
    assert (L : length (zipw nadd s (map (nmul h) sd)) = length s)
      by (rewrite zipw_length; rewrite ?map_length; congruence).
    rewrite np_clip_list by (rewrite L; auto). cbn [bind]. rewrite L. fold n.
    rewrite wrap_angles_list with (c := c).
    - cbn [bind o_res o_entity with_step e_sdot e_state]. auto.
    - exact W.
    - rewrite Lc, clip_list_length; rewrite ?expand_length; auto.
  Qed.
  (** The same without angle wrapping. *)
  Lemma euler_list0 (w : world T) (e : entity T) h s l sd :
    d_method (e_dyn e) = "Euler"%string -> (d_samples (e_dyn e) <= 0)%Z ->
    e_state e = A1 s -> fits (e_cmin e) (A1 l) -> fits (e_cmax e) (A1 l) ->
    compute_state_dot (e_dyn e) n0 (A1 s)
      (A1 (clip_list l (expand (length l) (e_cmin e)) (expand (length l) (e_cmax e)))) = Ok (A1 sd) ->
    length sd = length s -> afits (length s) (d_min (e_dyn e)) -> afits (length s) (d_max (e_dyn e)) ->
    d_wrap (e_dyn e) = None ->
    let o := entity_step w e h (AArr (A1 l)) in
    let n := length s in
    o_res o = Ok tt /\ e_sdot (o_entity o) = A1 sd /\
    e_state (o_entity o) = A1 (clip_list (zipw nadd s (map (nmul h) sd))
      (expand n (d_min (e_dyn e))) (expand n (d_max (e_dyn e)))).
  Proof.
    intros Me Sa Es F1 F2 Cd Ld M1 M2 W o n. subst o. unfold entity_step. cbn [decode_action].
    destruct (out_of_bounds_spec (A1 l) _ _ F1 F2) as (b & Eb & _). rewrite Eb.
    rewrite np_clip_list; [|destruct (e_cmin e); simpl in *; auto|destruct (e_cmax e); simpl in *; auto].
    unfold dyn_step, dyn__step. rewrite Me. cbn [String.eqb Ascii.eqb Bool.eqb].
    rewrite (proj2 (Z.leb_le _ _) Sa). cbn [py_assert bind]. rewrite Es, Cd. cbn [bind amap].
    rewrite (bmap2_expand nadd s (A1 (map (nmul h) sd))) by (simpl; rewrite map_length; exact Ld). cbn [bind expand].
    assert (L : length (zipw nadd s (map (nmul h) sd)) = length s)
      by (rewrite zipw_length; rewrite ?map_length; congruence).
    rewrite np_clip_list by (rewrite L; auto). cbn [bind]. rewrite L. fold n.
    unfold wrap_angles. rewrite W. cbn [bind o_res o_entity with_step e_sdot e_state]. auto.
  Qed.
End G.

Section X.
  Variable r32 : R -> xr.
  Local Hint Extern 0 (Num xr) => exact (XR r32) : typeclass_instances.
  Local Open Scope R_scope.

  Lemma limited_inf x r : limited_dot NInf PInf NInf PInf (Fin x) (Fin r) = Fin r.
  Proof. reflexivity. Qed.
  Lemma limited_rate lo hi x r : limited_dot NInf PInf (Fin lo) (Fin hi) (Fin x) (Fin r) = Fin (clipR lo hi r).
  Proof. unfold limited_dot. rewrite clip1_Fin. reflexivity. Qed.
  Lemma clip_neg r : clip1 (Fin r) nninf n0 = Fin (Rmin r 0).
  Proof.
    unfold clip1, np_max_clip, np_min_clip, Rmin. cbn. destruct (Rle_dec r 0), (Rlt_bool_spec r (0/1)); f_equal; lra.
  Qed.
  Lemma clip_pos r : clip1 (Fin r) n0 npinf = Fin (Rmax r 0).
  Proof.
    unfold clip1, np_max_clip, np_min_clip, Rmax. cbn. destruct (Rle_dec r 0), (Rlt_bool_spec (0/1) r); cbn; f_equal; lra.
  Qed.
  Lemma stop_Fin lo hi x r :
    (if nleb (Fin hi) (Fin x) then clip1 (Fin r) nninf n0
     else if nleb (Fin x) (Fin lo) then clip1 (Fin r) n0 npinf else Fin r) = Fin (stopR lo hi x r).
  Proof.
    rewrite clip_neg, clip_pos. unfold stopR. cbn [nleb XR xleb].
    destruct (Rle_bool_spec hi x), (Rle_dec hi x); try lra; auto.
    destruct (Rle_bool_spec x lo), (Rle_dec x lo); try lra; auto.
  Qed.
  Lemma limited_state lo hi x r : limited_dot (Fin lo) (Fin hi) NInf PInf (Fin x) (Fin r) = Fin (stopR lo hi x r).
  Proof. unfold limited_dot. rewrite clip1_none. apply stop_Fin. Qed.
  Lemma limited_both lo hi slo shi x r :
    limited_dot (Fin lo) (Fin hi) (Fin slo) (Fin shi) (Fin x) (Fin r) = Fin (stopR lo hi x (clipR slo shi r)).
  Proof. unfold limited_dot. rewrite clip1_Fin. apply stop_Fin. Qed.
  Lemma turn_cos a b : same_angle a b -> cos a = cos b /\ sin a = sin b.
  Proof.
    intros [k ->]. replace (b + 2 * PI * IZR k) with (b + 2 * IZR k * PI) by ring.
    destruct (Z_lt_le_dec k 0) as [K|K].
    - replace k with (- Z.of_nat (Z.to_nat (- k)))%Z by lia. rewrite opp_IZR, <- INR_IZR_INZ.
      generalize (Z.to_nat (- k)). intros q. 
      split; [rewrite <- (cos_period _ q)|rewrite <- (sin_period _ q)]; f_equal; ring.
    - replace k with (Z.of_nat (Z.to_nat k))%Z by lia. rewrite <- INR_IZR_INZ.
      split; [apply cos_period|apply sin_period].
  Qed.
  Lemma wrap_turn a b y : same_angle a b ->
    wrap1 (Fin 0) (clip1 (xadd (Fin a) y) NInf PInf) = wrap1 (Fin 0) (clip1 (xadd (Fin b) y) NInf PInf).
  Proof.
    intros [k ->]. destruct y as [y| | |]; try reflexivity. cbn [xadd]. rewrite !clip1_none, !wrap1_Fin. f_equal.
    apply (turns_unique (b + 2 * PI * IZR k + y) (b + y)).
    - pose proof (wrapR_range 0 (b + 2 * PI * IZR k + y)). lra.
    - pose proof (wrapR_range 0 (b + y)). lra.
    - exists k. lra.
    - destruct (wrapR_turns 0 (b + 2 * PI * IZR k + y)) as [q Hq]. exists q. lra.
    - destruct (wrapR_turns 0 (b + y)) as [q Hq]. exists q. lra.
  Qed.
  Lemma stopR_between lo hi x r a b : a <= 0 <= b -> a <= r <= b -> a <= stopR lo hi x r <= b.
  Proof.
    intros H1 H2. unfold stopR, Rmin, Rmax.
    destruct (Rle_dec hi x); [|destruct (Rle_dec x lo)]; destruct (Rle_dec r 0); lra.
  Qed.
  Lemma clipR_between lo hi x : lo <= hi -> lo <= clipR lo hi x <= hi.
  Proof. intros H. unfold clipR, Rmin, Rmax. destruct (Rle_dec x lo); [destruct (Rle_dec lo hi)|destruct (Rle_dec x hi)]; lra. Qed.
End X.
