(** What a command that is not a number does to an entity. *)
From Coq Require Import String List Bool Arith ZArith Lia Reals Lra.
From Flocq Require Import Core.Core IEEE754.BinarySingleNaN.
From Verif Require Import PyBase Num Arr BaseModel Cwh Spec SpecBase SpecWrap XReal Float64 NumOrdLemmas ArrLemmas
  BaseLemmas BaseLemmas2 BaseLemmas3 BaseLemmas4 BaseLemmas5 LimLemmas XTac SpecMethod.
Import List ListNotations.

Global Instance XR_nan (r32 : R -> xr) : @NumNan xr (XR r32).
Proof. constructor; intros [] []; cbn; intros H; try discriminate H; reflexivity. Qed.
Global Instance F64_nan (lm : libm) : @NumNan f64 (F64 lm).
Proof.
  constructor; cbn; intros x y H.
  - destruct x; try discriminate H; reflexivity.
  - destruct y; try discriminate H; destruct x; reflexivity.
  - destruct x; try discriminate H; reflexivity.
  - destruct y; try discriminate H; destruct x; reflexivity.
Qed.

Section G.
  Context {T : Type} {N : Num T} {P : NumNan T}.

  Lemma clip1_nan x lo hi : nisnan x = true -> nisnan (clip1 x lo hi) = true.
  Proof. intros H. unfold clip1, np_min_clip, np_max_clip. rewrite H, H. exact H. Qed.
  Lemma limited_nan a b c d x r : nisnan r = true -> nisnan (limited_dot a b c d x r) = true.
  Proof. intros H. unfold limited_dot. destruct (nleb b x); [|destruct (nleb x a)]; repeat apply clip1_nan; exact H. Qed.
  Lemma dot_acc_nan l m : forall acc, nisnan acc = true -> nisnan (dot_acc acc l m) = true.
  Proof.
    revert m. induction l as [|a l IH]; intros [|b m] acc H; auto. cbn. apply IH. apply nan_add_l. exact H.
  Qed.
  Lemma dot_nan l m : length l = length m -> existsb nisnan m = true -> forall acc, nisnan (dot_acc acc l m) = true.
  Proof.
    revert l. induction m as [|b m IH]; intros [|a l] L H acc; try discriminate. cbn in *.
    destruct (nisnan b) eqn:E.
    - apply dot_acc_nan. apply nan_add_r, nan_mul_r. exact E.
    - apply IH; [lia|exact H].
  Qed.


  Lemma forall_nth (l : list T) : (forall i x, nth_error l i = Some x -> nisnan x = true) -> Forall (fun x => nisnan x = true) l.
  Proof. intros H. apply Forall_forall. intros x Hx. destruct (In_nth_error _ _ Hx) as (i & E). eauto. Qed.

  Lemma np_clip_nan l lo hi : afits (length l) lo -> afits (length l) hi -> existsb nisnan l = true ->
    exists l', np_clip (A1 l) lo hi = Ok (A1 l') /\ length l' = length l /\ existsb nisnan l' = true.
  Proof.
    intros H1 H2 H. eexists. split; [apply np_clip_list; auto|].
    pose proof (expand_length _ _ H1) as L1. pose proof (expand_length _ _ H2) as L2.
    split; [apply clip_list_length; auto|]. revert L1 L2. generalize (expand (length l) lo) (expand (length l) hi).
    clear H1 H2. induction l as [|x l IH]; intros [|a p] [|b q] L1 L2; try discriminate. cbn in *.
    destruct (nisnan x) eqn:E.
    - rewrite clip1_nan by auto. reflexivity.
    - rewrite IH by (auto; lia). apply orb_true_r.
  Qed.
  Lemma clip_all l lo hi : Forall (fun x => nisnan x = true) l -> Forall (fun x => nisnan x = true) (clip_list l lo hi).
  Proof.
    intros H. revert lo hi. induction H as [|x l Hx H IH]; intros [|a p] [|b q]; cbn; constructor; auto. apply clip1_nan; auto.
  Qed.

  Lemma cwh_nan_csd m n samples method d s u t : cwh_dyn m n samples method = Ok d -> length s = 6%nat ->
    length u = 3%nat ->
    exists sd, compute_state_dot d t (A1 s) (A1 u) = Ok (A1 sd) /\ length sd = 6%nat /\
      (existsb nisnan u = true \/ Forall (fun x => nisnan x = true) s -> Forall (fun x => nisnan x = true) sd).
  Proof.
    intros E Ls Lu.
    do 7 (destruct s as [|? s]; try discriminate Ls). do 4 (destruct u as [|? u]; try discriminate Lu).
    assert (H' : existsb nisnan [t6; t7; t8] = true \/ Forall (fun x => nisnan x = true) [t0; t1; t2; t3; t4; t5] ->
      forall r q, length r = 6%nat -> length q = 3%nat ->
      nisnan (nadd (dot r [t0; t1; t2; t3; t4; t5]) (dot q [t6; t7; t8])) = true).
    { intros H r q Lr Lq. destruct H as [H|H].
      - apply nan_add_r, dot_nan; auto.
      - apply nan_add_l, dot_nan; auto. inversion H; subst. cbn. rewrite H2. reflexivity. }
    unfold cwh_dyn, generate_cwh_matrices in E. cbn [py_assert String.eqb Ascii.eqb Bool.eqb orb bind] in E.
    destruct (pydiv _ _) as [im|]; [|discriminate]. cbn [bind] in E. unfold linear_dyn in E. cbn in E. injection E as <-.
    eexists. split.
    - apply csd_list; try exact I; cbn [d_raw]; [|cbv beta; unfold linear_raw, affine_raw, matvec; cbn [forallb length Nat.eqb andb bind map bmap2 zipw]; reflexivity]. reflexivity.
    - cbn [d_min d_max d_sdmin d_sdmax no_min no_max expand repeat length lim_list].
      split; [reflexivity|]. intros H. specialize (H' H). repeat constructor; apply limited_nan; apply H'; reflexivity.
  Qed.

  Lemma cwh_nan_step (w : world T) (e : entity T) m n samples h l : cwh_dyn m n samples "Euler" = Ok (e_dyn e) -> (samples <= 0)%Z ->
    forall s lo hi, e_state e = A1 s -> length s = 6%nat -> e_cmin e = A0 lo -> e_cmax e = A0 hi -> length l = 3%nat ->
    let o := entity_step w e h (AArr (A1 l)) in
    o_res o = Ok tt /\ exists s', e_state (o_entity o) = A1 s' /\ length s' = 6%nat /\
      (existsb nisnan l = true \/ Forall (fun x => nisnan x = true) s -> Forall (fun x => nisnan x = true) s').
  Proof.
    intros E Sa s lo hi Es Ls C1 C2 Ll o.
    assert (Dd : d_method (e_dyn e) = "Euler"%string /\ d_samples (e_dyn e) = samples /\ d_min (e_dyn e) = no_min /\
      d_max (e_dyn e) = no_max /\ d_wrap (e_dyn e) = None).
    { clear -E. unfold cwh_dyn, generate_cwh_matrices in E. cbn [py_assert String.eqb Ascii.eqb Bool.eqb orb bind] in E.
      destruct (pydiv _ _) as [im|]; [|discriminate]. cbn [bind] in E. unfold linear_dyn in E. cbn in E.
      assert (Q : forall a b : dyn T, Ok a = Ok b -> a = b) by congruence. apply Q in E. rewrite <- E. cbn. auto. }
    destruct Dd as (D1 & D2 & D3 & D4 & D5).
    set (u := clip_list l (expand (length l) (e_cmin e)) (expand (length l) (e_cmax e))).
    assert (Hu : length u = 3%nat /\ (existsb nisnan l = true \/ Forall (fun x => nisnan x = true) s ->
      existsb nisnan u = true \/ Forall (fun x => nisnan x = true) s)).
    { destruct (np_clip_list l (e_cmin e) (e_cmax e)) as []; [rewrite C1; exact I|rewrite C2; exact I|].
      split.
      - unfold u. rewrite clip_list_length; auto; rewrite expand_length; auto; rewrite ?C1, ?C2; exact I.
      - intros H. destruct H as [H|H]; [left|right; exact H]. unfold u.
        destruct (np_clip_nan l (e_cmin e) (e_cmax e)) as (l' & E' & _ & X); [rewrite C1; exact I|rewrite C2; exact I|exact H|].
        rewrite np_clip_list in E'; [|rewrite C1; exact I|rewrite C2; exact I].
        assert (Q : forall a b : list T, Ok (A1 a) = Ok (A1 b) -> a = b) by congruence. apply Q in E'. rewrite E'. exact X. }
    destruct Hu as (Lu & Hu).
    destruct (cwh_nan_csd _ _ _ _ _ s u n0 E Ls Lu) as (sd & Csd & Lsd & Nsd).
    destruct (euler_list0 w e h s l sd) as (R1 & R2 & R3); auto.
    { rewrite D2. exact Sa. } { rewrite C1. exact I. } { rewrite C2. exact I. }
    { congruence. } { rewrite D3. exact I. } { rewrite D4. exact I. }
    split; [exact R1|]. eexists. split; [exact R3|].
    assert (Lz : length (zipw nadd s (map (nmul h) sd)) = 6%nat) by (rewrite zipw_length; rewrite ?map_length; congruence).
    split.
    - rewrite clip_list_length; auto; rewrite expand_length, ?Lz; auto; rewrite ?D3, ?D4; exact I.
    - intros H. specialize (Nsd (Hu H)). apply clip_all. clear -Nsd Ls Lsd P. assert (Lx : length s = length sd) by congruence. clear Lsd Ls. rename Lx into Ls. revert sd Nsd Ls. induction s as [|x s IH]; intros [|y sd] F L; try discriminate; cbn; constructor.
      + inversion F; subst. apply nan_add_r, nan_mul_r. auto.
      + inversion F; subst. apply IH; auto.
  Qed.

  Lemma cwh_arity (w : world T) (e : entity T) m n samples h a : cwh_dyn m n samples "Euler" = Ok (e_dyn e) ->
    forall lo hi, e_cmin e = A0 lo -> e_cmax e = A0 hi -> o_res (entity_step w e h a) = Ok tt ->
    exists l, length l = 3%nat /\ entity_step w e h a = entity_step w e h (AArr (A1 l)).
  Proof.
    intros E lo hi C1 C2 R. destruct (entity_step_ok _ _ _ _ R) as (c & c' & tr & Dc & Np & Ds & _).
    destruct (dyn_step_inv _ _ _ _ _ _ _ _ _ Ds) as (nx & mx & D' & _).
    assert (Me : d_method (e_dyn e) = "Euler"%string).
    { clear -E. unfold cwh_dyn, generate_cwh_matrices in E. cbn [py_assert String.eqb Ascii.eqb Bool.eqb orb bind] in E.
      destruct (pydiv _ _) as [im|]; [|discriminate]. cbn [bind] in E. unfold linear_dyn in E. cbn in E.
      assert (Q : forall a b : dyn T, Ok a = Ok b -> a = b) by congruence. apply Q in E. rewrite <- E. reflexivity. }
    unfold dyn__step in D'. rewrite Me in D'. cbn [String.eqb Ascii.eqb Bool.eqb] in D'.
    destruct (py_assert _); [|discriminate]. cbn [bind] in D'.
    destruct (compute_state_dot _ _ _ _) as [q|] eqn:Q; [|discriminate]. clear D' Ds.
    unfold compute_state_dot in Q. destruct (d_raw _ _ _ _) as [r|] eqn:Rw; [|discriminate].
    rewrite C1, C2 in Np.
    destruct c as [x|l].
    - exfalso. unfold np_clip in Np. cbn in Np. injection Np as <-.
      revert Rw. clear -E. unfold cwh_dyn, generate_cwh_matrices in E. cbn [py_assert String.eqb Ascii.eqb Bool.eqb orb bind] in E.
      destruct (pydiv _ _) as [im|]; [|discriminate]. cbn [bind] in E. unfold linear_dyn in E. cbn in E.
      assert (Q : forall a b : dyn T, Ok a = Ok b -> a = b) by congruence. apply Q in E. rewrite <- E. cbn [d_raw].
      unfold linear_raw, affine_raw. destruct (matvec _ (e_state e)); [|discriminate]. discriminate.
    - exists l. rewrite np_clip_list in Np by exact I. injection Np as <-.
      split.
      + destruct (Nat.eq_dec (length l) 3) as [L|L]; [exact L|exfalso].
        edestruct (cwh_rejects _ _ _ _ _ E) as (x & X); [|rewrite X in Rw; discriminate].
        rewrite clip_list_length; [exact L|..]; apply repeat_length.
      + unfold entity_step. rewrite Dc. reflexivity.
  Qed.

  Lemma cwh_nan_forever (w : world T) m n samples acts : (samples <= 0)%Z -> forall (e : entity T) e',
    cwh_dyn m n samples "Euler" = Ok (e_dyn e) -> (exists lo hi, e_cmin e = A0 lo /\ e_cmax e = A0 hi) ->
    all_nan (e_state e) -> run w e acts = Ok e' -> all_nan (e_state e').
  Proof.
    intros Sa. induction acts as [|[h a] acts IH]; intros e e' E (lo & hi & C1 & C2) A R.
    - injection R as <-. exact A.
    - cbn [run] in R. destruct (o_res (entity_step w e h a)) as [[]|] eqn:Q; [|discriminate]. cbn [bind] in R.
      destruct (entity_step_config w e h a) as (K1 & K2 & K3 & K4 & K5).
      destruct (cwh_arity _ _ _ _ _ _ _ E lo hi C1 C2 Q) as (l & Ll & Ea).
      revert R. apply IH.
      + congruence.
      + exists lo, hi. split; congruence.
      + rewrite Ea. destruct A as (s & Es & Ls & F).
        destruct (cwh_nan_step w e m n samples h l E Sa s lo hi Es Ls C1 C2 Ll) as (_ & s' & Es' & Ls' & F'). exists s'. auto.
  Qed.

  Lemma cwh_nan_poison (w : world T) m n samples x y z vx vy vz e : (samples <= 0)%Z ->
    cwh_spacecraft m n samples "Euler" x y z vx vy vz = Ok e ->
    forall past h l future e1 e2, run w e past = Ok e1 -> length l = 3%nat -> existsb nisnan l = true ->
      run w e1 ((h, AArr (A1 l)) :: future) = Ok e2 -> all_nan (e_state e2).
  Proof.
    intros Sa E past h l future e1 e2 R1 Ll Hl R2.
    assert (C : cwh_dyn m n samples "Euler" = Ok (e_dyn e) /\ e_cmin e = A0 (nZ (-1)) /\ e_cmax e = A0 n1).
    { unfold cwh_spacecraft in E. destruct (cwh_dyn _ _ _ _) as [d|] eqn:D; [|discriminate]. injection E as <-. auto. }
    destruct C as (D & C1 & C2).
    assert (I1 : forall acts e0 e3, cwh_dyn m n samples "Euler" = Ok (e_dyn e0) -> e_cmin e0 = A0 (nZ (-1)) -> e_cmax e0 = A0 n1 ->
      (exists s, e_state e0 = A1 s /\ length s = 6%nat) -> run w e0 acts = Ok e3 ->
      cwh_dyn m n samples "Euler" = Ok (e_dyn e3) /\ e_cmin e3 = A0 (nZ (-1)) /\ e_cmax e3 = A0 n1 /\
      (exists s, e_state e3 = A1 s /\ length s = 6%nat)).
    { induction acts as [|[h' a'] acts IH]; intros e0 e3 G1 G2 G3 G4 R.
      - injection R as <-. auto.
      - cbn [run] in R. destruct (o_res (entity_step w e0 h' a')) as [[]|] eqn:Q; [|discriminate]. cbn [bind] in R.
        destruct (entity_step_config w e0 h' a') as (K1 & K2 & K3 & K4 & K5).
        assert (G1' : cwh_dyn m n samples "Euler" = Ok (e_dyn (o_entity (entity_step w e0 h' a')))) by (rewrite K1; exact G1).
        apply (IH _ _ G1' (eq_trans K3 G2) (eq_trans K4 G3)) in R; [exact R|]. clear G1'.
        destruct (cwh_arity _ _ _ _ _ _ _ G1 _ _ G2 G3 Q) as (l' & Ll' & Ea). rewrite Ea. clear Ea R K1 K2 K3 K4 K5 IH.
        destruct G4 as (s & Es & Ls).
        destruct (cwh_nan_step w e0 m n samples h' l' G1 Sa s _ _ Es Ls G2 G3 Ll') as (_ & s' & Es' & Ls' & _). eauto. }
    assert (S0 : exists s, e_state e = A1 s /\ length s = 6%nat).
    { unfold cwh_spacecraft in E. destruct (cwh_dyn _ _ _ _) as [d|]; [|discriminate]. injection E as <-. eexists. split; reflexivity. }
    destruct (I1 _ _ _ D C1 C2 S0 R1) as (D1 & G1 & G2 & s & Es & Ls).
    cbn [run] in R2. destruct (cwh_nan_step w e1 m n samples h l D1 Sa s _ _ Es Ls G1 G2 Ll) as (Q & s' & Es' & Ls' & F).
    rewrite Q in R2. cbn [bind] in R2.
    destruct (entity_step_config w e1 h (AArr (A1 l))) as (K1 & K2 & K3 & K4 & K5).
    refine (cwh_nan_forever w m n samples future Sa _ e2 _ _ _ R2); [congruence|..].
    2:{ exists s'. auto. }
    eexists _, _. split; [rewrite K3; exact G1|rewrite K4; exact G2].
  Qed.
End G.

Lemma all_nan_silent {T} {N : Num T} {O : NumOrd T} (w : world T) (e : entity T) h l :
  fits (e_cmin e) (A1 l) -> fits (e_cmax e) (A1 l) -> Forall (fun x => nisnan x = true) l ->
  o_warned (entity_step w e h (AArr (A1 l))) = false.
Proof.
  intros F1 F2 H. destruct (o_warned _) eqn:E; [|reflexivity]. exfalso.
  apply warned_iff in E; auto. destruct E as (i & x & Ex & D). cbn in Ex.
  rewrite Forall_forall in H. specialize (H x (nth_error_In _ _ Ex)).
  destruct D as [(y & _ & L)|(y & _ & L)]; [rewrite nan_ltb_l in L by exact H|rewrite nan_ltb_r in L by exact H]; discriminate.
Qed.

Section U.
  Context {T : Type} {N : Num T} {P : NumNan T}.
  Lemma cwh_nan_once (w : world T) m n x y z vx vy vz h l : neqb m n0 = false ->
    length l = 3%nat -> existsb nisnan l = true -> out_of_bounds (A1 l) (A0 (nZ (-1))) (A0 n1) = Ok false ->
    exists e, cwh_spacecraft m n 0 "Euler" x y z vx vy vz = Ok e /\
      let o := entity_step w e h (AArr (A1 l)) in
      o_warned o = false /\ o_res o = Ok tt /\ all_nan (e_state (o_entity o)).
  Proof.
    intros Hm Ll Hl B. unfold cwh_spacecraft.
    destruct (cwh_dyn m n 0 "Euler") as [d|] eqn:D.
    2:{ exfalso. unfold cwh_dyn, generate_cwh_matrices, pydiv in D. cbn [py_assert String.eqb Ascii.eqb Bool.eqb orb bind] in D.
        rewrite Hm in D. discriminate. }
    eexists. split; [reflexivity|]. cbv zeta. set (e := mk_entity _ _ _ _ _ _).
    destruct (cwh_nan_step w e m n 0%Z h l D ltac:(lia) _ _ _ eq_refl eq_refl eq_refl eq_refl Ll) as (R & s' & Es & Ls & F).
    split; [|split; [exact R|]].
    - unfold entity_step. cbn [decode_action]. change (e_cmin e) with (A0 (@nZ T N (-1))). change (e_cmax e) with (A0 (@n1 T N)).
      rewrite B. destruct (np_clip _ _ _); [|reflexivity]. destruct (dyn_step _ _ _ _ _ _) as [? [[]|]]; reflexivity.
    - exists s'. split; [exact Es|]. split; [exact Ls|]. apply F. left. exact Hl.
  Qed.
End U.

Lemma nan_unnoticed : exists e : entity f64,
  cwh_spacecraft (N := F64 lm0) (fl 12 1) (fl 1 1000) 0 "Euler" (fl 100 1) (fl 0 1) (fl 0 1) (fl 0 1) (fl 0 1) (fl 0 1) = Ok e /\
  let o := entity_step (N := F64 lm0) (euler_world (N := F64 lm0)) e (fl 1 1) (AArr (A1 [@nnan f64 (F64 lm0); fl 0 1; fl 0 1])) in
  o_warned o = false /\ o_res o = Ok tt /\ all_nan (N := F64 lm0) (e_state (o_entity o)).
Proof.
  apply (cwh_nan_once (N := F64 lm0)); [vm_compute; reflexivity|reflexivity|vm_compute; reflexivity|vm_compute; reflexivity].
Qed.
